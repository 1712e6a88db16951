(** Declaring layers. *)
From Verif Require Import PyBase PyBaseFacts Model_Text Model_Heap Model_Layer Model_Types Model_Msgpack Model_Document Model_Printout Model_Declare
  Spec_Layer Spec_Types Spec_Document Spec_Declare Spec_Printout Proof_Document Proof_Printout Proof_JValue3.
Local Open Scope Z_scope.
Local Arguments s : simpl never.

(** ** types as given *)
Lemma gives_ok g t : gives g t <-> given_type g = Ok t.
Proof. split; [intros []; reflexivity|]. destruct g as [t'|[[t'|]|e]|]; cbn; intros H; try discriminate; apply (f_equal (fun r => match r with Ok x => x | Err _ => t end)) in H; subst; constructor. Qed.
Lemma refuses_ok g e : refuses g e <-> given_type g = Err e.
Proof. split; [intros []; reflexivity|]. destruct g as [t'|[[t'|]|e']|]; cbn; intros H; try discriminate; injection H as <-; constructor. Qed.
Lemma set_spec kw : forall fs fs' r, schema_set fs kw = (fs', r) -> exists done rest added, kw = done ++ rest /\ Forall2 gives_field done added /\ fs' = fs ++ added /\
  (NoDup (dkeys fs) -> NoDup (dkeys fs')) /\
  match r with
  | Ok _ => rest = []
  | Err e => exists k g rest', rest = (k, g) :: rest' /\ (refuses g e \/ e = ValueError /\ (exists t, gives g t) /\ In k (dkeys fs'))
  end.
Proof.
  induction kw as [|[k g] kw IH]; intros fs fs' r; cbn [schema_set].
  - intros H. injection H as <- <-. exists [], [], []. split; [reflexivity|]. split; [constructor|]. rewrite app_nil_r. auto.
  - destruct (given_type g) as [t|e] eqn:E.
    + destruct (dmem fs k) eqn:M.
      * intros H. injection H as <- <-. exists [], ((k, g) :: kw), []. rewrite app_nil_r. split; [reflexivity|]. split; [constructor|]. split; [reflexivity|]. split; [auto|]. exists k, g, kw. split; [reflexivity|]. right. split; [reflexivity|]. split; [exists t; apply gives_ok; exact E|apply dmem_In; exact M].
      * intros H. destruct (IH _ _ _ H) as (done & rest & added & -> & F & -> & ND & R). assert (Ef : dget fs k = None). { unfold dmem in M. destruct (dget fs k); [discriminate|reflexivity]. }
        rewrite (dset_absent fs k t Ef) in *. exists ((k, g) :: done), rest, ((k, t) :: added). rewrite <- !app_assoc in *. cbn [app] in *. split; [reflexivity|]. split; [constructor; [split; [reflexivity|apply gives_ok; exact E]|exact F]|]. split; [reflexivity|].
        split; [|exact R]. intros N0. apply ND. unfold dkeys. rewrite map_app. cbn [map fst]. apply NoDup_snoc; [exact N0|]. intros Hi. apply dmem_In in Hi. unfold pystr in *. congruence.
    + intros H. injection H as <- <-. exists [], ((k, g) :: kw), []. rewrite app_nil_r. split; [reflexivity|]. split; [constructor|]. split; [reflexivity|]. split; [auto|]. exists k, g, kw. split; [reflexivity|]. left. apply refuses_ok. exact E.
Qed.
Lemma set_ok fs kw added : NoDup (dkeys fs ++ dkeys kw) -> Forall2 gives_field kw added -> schema_set fs kw = (fs ++ added, Ok tt).
Proof.
  intros ND F. revert fs ND. induction F as [|[k g] [k' t] kw added [E G] F IH]; intros fs ND; cbn [schema_set].
  - rewrite app_nil_r. reflexivity.
  - cbn [fst snd] in *. subst k'. apply gives_ok in G. rewrite G. change (dkeys ((k, g) :: kw)) with (k :: dkeys kw) in ND. pose proof (NoDup_remove_2 _ _ _ ND) as Nk.
    destruct (dmem fs k) eqn:M; [exfalso; apply Nk, in_or_app; left; apply dmem_In; exact M|]. assert (Ef : dget fs k = None). { unfold dmem in M. destruct (dget fs k); [discriminate|reflexivity]. }
    rewrite (dset_absent fs k t Ef), IH; [rewrite <- app_assoc; reflexivity|]. unfold dkeys at 1. rewrite map_app. cbn [map fst]. rewrite <- app_assoc. exact ND.
Qed.
Lemma add_set fs k g : fst (schema_add fs k g) = fst (schema_set fs [(k, g)]) /\
  (~ (In k (dkeys fs) /\ exists e, refuses g e) -> schema_add fs k g = schema_set fs [(k, g)]) /\
  (In k (dkeys fs) -> schema_add fs k g = (fs, Err ValueError) /\ forall e, refuses g e -> schema_set fs [(k, g)] = (fs, Err e)).
Proof.
  unfold schema_add. cbn [schema_set]. destruct (dmem fs k) eqn:M; destruct (given_type g) as [t|e] eqn:E; cbn [fst].
  - split; [reflexivity|]. split; [reflexivity|]. intros _. split; [reflexivity|]. intros e R. apply refuses_ok in R. congruence.
  - split; [reflexivity|]. split; [intros H; exfalso; apply H; split; [apply dmem_In; exact M|exists e; apply refuses_ok; exact E]|]. intros _. split; [reflexivity|]. intros e' R. apply refuses_ok in R. congruence.
  - split; [reflexivity|]. split; [reflexivity|]. intros H. apply dmem_In in H. congruence.
  - split; [reflexivity|]. split; [reflexivity|]. intros H. apply dmem_In in H. congruence.
Qed.

(** ** sharing *)
Lemma put_len {A} (l : list A) i x : length (at_put l i x) = length l.
Proof. revert i. induction l as [|y l IH]; intros [|i]; cbn; auto. Qed.
Lemma nth_put_same {A} (l : list A) i x d : (i < length l)%nat -> nth i (at_put l i x) d = x.
Proof. revert i. induction l as [|y l IH]; intros [|i] L; cbn in *; try lia; [reflexivity|apply IH; lia]. Qed.
Lemma nth_put_other {A} (l : list A) i j x d : i <> j -> nth j (at_put l i x) d = nth j l d.
Proof. revert i j. induction l as [|y l IH]; intros [|i] [|j] L; cbn; auto; try congruence. Qed.
Definition sound (st : store) : Prop := forall l, (l < length (st_layers st))%nat -> (sl_schema (slayer_at st l) < length (st_schemas st))%nat.
Lemma put_declared st i fs m : (i < length (st_schemas st))%nat -> declared_by (put_fields st i fs) m = if Nat.eqb (sl_schema (slayer_at st m)) i then fs else declared_by st m.
Proof.
  intros L. unfold declared_by, put_fields, schema_at, slayer_at. cbn [st_schemas st_layers]. destruct (Nat.eqb_spec (sl_schema (nth m (st_layers st) (mkSL 0 []))) i) as [->|N].
  - rewrite nth_put_same by exact L. reflexivity.
  - rewrite nth_put_other by congruence. reflexivity.
Qed.
Lemma refresh_schema st l m : sl_schema (slayer_at (refresh st l) m) = sl_schema (slayer_at st m).
Proof.
  unfold refresh, slayer_at. cbn [st_layers]. destruct (Nat.eq_dec l m) as [->|N]; [|rewrite nth_put_other by exact N; reflexivity]. destruct (Nat.lt_ge_cases m (length (st_layers st))) as [L|L].
  - rewrite nth_put_same by exact L. reflexivity.
  - rewrite !nth_overflow by (rewrite ?put_len; exact L). reflexivity.
Qed.
Lemma refresh_declared st l m : declared_by (refresh st l) m = declared_by st m.
Proof. unfold declared_by. rewrite refresh_schema. reflexivity. Qed.
Lemma in_defaults fs f v : In (f, v) (defaults_of fs) <-> exists t, In (f, t) fs /\ dget (dt_opts t) (s "default") = Some v /\ v <> VNone.
Proof.
  induction fs as [|[g d] fs IH]; cbn [defaults_of].
  - split; [intros []|intros (t & [] & _)].
  - assert (D : forall w, dt_default d = Some w <-> dget (dt_opts d) (s "default") = Some w /\ w <> VNone).
    { intros w. unfold dt_default. destruct (dget (dt_opts d) (s "default")) as [[]|]; split; try (intros H; discriminate); try (intros [H1 H2]; discriminate); try (intros [H1 H2]; congruence); intros H; split; congruence. }
    destruct (dt_default d) as [w|] eqn:E.
    + cbn [In]. rewrite IH. split.
      * intros [H|(t & I1 & H)]; [injection H as -> ->; exists d; split; [left; reflexivity|apply D; reflexivity]|exists t; auto].
      * intros (t & [H|I1] & H1); [injection H as -> ->; apply D in H1; left; congruence|right; exists t; auto].
    + rewrite IH. split; [intros (t & I1 & H); exists t; split; [right; exact I1|exact H]|]. intros (t & [H|I1] & H1); [injection H as -> ->; apply D in H1; discriminate|exists t; auto].
Qed.
Definition fresh (st : store) : Prop := forall l, (l < length (st_layers st))%nat -> sl_defaults (slayer_at st l) = defaults_of (declared_by st l).
Definition alone (st : store) : Prop := forall l m, (l < length (st_layers st))%nat -> (m < length (st_layers st))%nat -> sl_schema (slayer_at st l) = sl_schema (slayer_at st m) -> l = m.
Lemma unused st i l : ~ in_use st i -> (l < length (st_layers st))%nat -> sl_schema (slayer_at st l) <> i.
Proof. intros U L E. apply U. exists l, (slayer_at st l). split; [apply nth_error_nth'; exact L|exact E]. Qed.
Lemma put_keeps st i fs : (i < length (st_schemas st))%nat -> sound st -> sound (put_fields st i fs).
Proof. intros L So l Ll. unfold put_fields, slayer_at in *. cbn [st_layers st_schemas] in *. rewrite put_len. apply So. exact Ll. Qed.
Lemma put_unused st i fs : (i < length (st_schemas st))%nat -> ~ in_use st i -> sound st /\ fresh st /\ alone st -> sound (put_fields st i fs) /\ fresh (put_fields st i fs) /\ alone (put_fields st i fs).
Proof.
  intros L U (So & Fr & Al). split; [apply put_keeps; assumption|]. split; [|exact Al]. intros l Ll. rewrite put_declared by exact L. destruct (Nat.eqb_spec (sl_schema (slayer_at st l)) i) as [E|_]; [exfalso; eapply unused; eassumption|]. apply Fr. exact Ll.
Qed.
Lemma put_own st l fs : (l < length (st_layers st))%nat -> sound st /\ fresh st /\ alone st -> let st' := refresh (put_fields st (sl_schema (slayer_at st l)) fs) l in sound st' /\ fresh st' /\ alone st'.
Proof.
  intros Ll (So & Fr & Al). cbn zeta. set (i := sl_schema (slayer_at st l)). assert (L : (i < length (st_schemas st))%nat) by (apply So; exact Ll). assert (Len : length (st_layers (refresh (put_fields st i fs) l)) = length (st_layers st)) by (unfold refresh; cbn [st_layers]; rewrite put_len; reflexivity).
  split; [|split].
  - intros m Lm. rewrite Len in Lm. rewrite refresh_schema. apply (put_keeps st i fs L So). exact Lm.
  - intros m Lm. rewrite Len in Lm. rewrite refresh_declared. destruct (Nat.eq_dec l m) as [<-|N].
    + unfold refresh, slayer_at at 1. cbn [st_layers]. rewrite nth_put_same by exact Ll. reflexivity.
    + unfold refresh, slayer_at at 1. cbn [st_layers]. rewrite nth_put_other by exact N. rewrite put_declared by exact L. destruct (Nat.eqb_spec (sl_schema (slayer_at st m)) i) as [E|_]; [exfalso; apply N; apply Al; [exact Ll|exact Lm|symmetry; exact E]|]. apply Fr. exact Lm.
  - intros a b La Lb. rewrite Len in La, Lb. rewrite !refresh_schema. apply Al; assumption.
Qed.
Lemma step_keeps st c : careful st c -> sound st /\ fresh st /\ alone st -> let st' := fst (dstep st c) in sound st' /\ fresh st' /\ alone st'.
Proof.
  intros C Inv. destruct c as [name|i name g|i kw|i|l name t|l name]; cbn [dstep careful] in *.
  - destruct Inv as (So & Fr & Al). assert (Dc : forall l, (l < length (st_layers st))%nat -> declared_by (mkStore (st_schemas st ++ [mkSchema name []]) (st_layers st)) l = declared_by st l).
    { intros l L. unfold declared_by, schema_at. cbn [st_schemas]. rewrite app_nth1; [reflexivity|]. apply So. exact L. }
    cbn [fst]. split; [|split].
    + intros l L. cbn [st_schemas] in *. rewrite app_length. cbn [length]. specialize (So l L). unfold slayer_at in *. cbn [st_layers] in *. lia.
    + intros l L. rewrite Dc by exact L. apply Fr. exact L.
    + exact Al.
  - destruct (Nat.ltb_spec i (length (st_schemas st))) as [L|L]; [|exact Inv]. destruct (schema_add _ name g) as [fs r]. cbn [fst]. apply put_unused; assumption.
  - destruct (Nat.ltb_spec i (length (st_schemas st))) as [L|L]; [|exact Inv]. destruct (schema_set _ kw) as [fs r]. cbn [fst]. apply put_unused; assumption.
  - destruct (Nat.ltb_spec i (length (st_schemas st))) as [L|L]; [|exact Inv]. destruct Inv as (So & Fr & Al). cbn [fst]. set (x := mkSL i (defaults_of (sch_fields (schema_at st i)))).
    assert (At : forall l, (l < length (st_layers st ++ [x]))%nat -> (l < length (st_layers st))%nat /\ nth l (st_layers st ++ [x]) (mkSL 0 []) = slayer_at st l \/ l = length (st_layers st) /\ nth l (st_layers st ++ [x]) (mkSL 0 []) = x).
    { intros l Ll. rewrite app_length in Ll. cbn [length] in Ll. destruct (Nat.lt_ge_cases l (length (st_layers st))) as [H|H]; [left; split; [exact H|apply app_nth1; exact H]|right; split; [lia|]]. rewrite app_nth2 by exact H. replace (l - length (st_layers st))%nat with 0%nat by lia. reflexivity. }
    split; [|split].
    + intros l Ll. cbn [st_layers st_schemas] in *. unfold slayer_at. cbn [st_layers]. destruct (At l Ll) as [[H E]|[H E]]; rewrite E; [apply So; exact H|exact L].
    + intros l Ll. cbn [st_layers] in Ll. unfold declared_by. unfold slayer_at. cbn [st_layers]. destruct (At l Ll) as [[H E]|[H E]]; rewrite E; [apply Fr; exact H|reflexivity].
    + intros a b La Lb. cbn [st_layers] in *. unfold slayer_at. cbn [st_layers]. destruct (At a La) as [[Ha Ea]|[Ha Ea]], (At b Lb) as [[Hb Eb]|[Hb Eb]]; rewrite Ea, Eb; intros E.
      * apply Al; assumption.
      * exfalso. exact (unused st i a C Ha E).
      * exfalso. exact (unused st i b C Hb (eq_sym E)).
      * congruence.
  - destruct (Nat.ltb_spec l (length (st_layers st))) as [L|L]; [|exact Inv]. destruct (dmem _ name); [exact Inv|]. cbn [fst]. apply put_own; assumption.
  - destruct (Nat.ltb_spec l (length (st_layers st))) as [L|L]; [|exact Inv]. destruct (dmem _ name); [|exact Inv]. cbn [fst]. apply put_own; assumption.
Qed.
Lemma run_keeps cs : forall st, all_careful st cs -> sound st /\ fresh st /\ alone st -> sound (drun st cs) /\ fresh (drun st cs) /\ alone (drun st cs).
Proof. induction cs as [|c cs IH]; intros st C Inv; [exact Inv|]. destruct C as [C1 C2]. cbn [drun]. apply IH; [exact C2|]. apply step_keeps; assumption. Qed.
Lemma empty_inv : sound (mkStore [] []) /\ fresh (mkStore [] []) /\ alone (mkStore [] []).
Proof. repeat split; intros l; cbn; intros; lia. Qed.
Theorem own_schema cs l : all_careful (mkStore [] []) cs -> (l < length (st_layers (drun (mkStore [] []) cs)))%nat -> up_to_date (drun (mkStore [] []) cs) l.
Proof. intros C L f v. destruct (run_keeps cs _ C empty_inv) as (_ & Fr & _). rewrite (Fr l L). apply in_defaults. Qed.

(** without the discipline: what a call does to the other layers *)
Lemma step_sound st c : sound st -> sound (fst (dstep st c)).
Proof.
  intros So. destruct c as [name|i name g|i kw|i|l name t|l name]; cbn [dstep].
  - intros l L. cbn [fst st_schemas st_layers] in *. rewrite app_length. cbn [length]. specialize (So l L). unfold slayer_at in *. cbn [st_layers] in *. lia.
  - destruct (Nat.ltb_spec i (length (st_schemas st))) as [L|L]; [|exact So]. destruct (schema_add _ name g) as [fs r]. apply put_keeps; assumption.
  - destruct (Nat.ltb_spec i (length (st_schemas st))) as [L|L]; [|exact So]. destruct (schema_set _ kw) as [fs r]. apply put_keeps; assumption.
  - destruct (Nat.ltb_spec i (length (st_schemas st))) as [L|L]; [|exact So]. cbn [fst]. intros l Ll. unfold slayer_at. cbn [st_layers st_schemas] in *. rewrite app_length in Ll. cbn [length] in Ll. destruct (Nat.lt_ge_cases l (length (st_layers st))) as [H|H].
    + rewrite app_nth1 by exact H. apply So. exact H.
    + rewrite app_nth2 by exact H. replace (l - length (st_layers st))%nat with 0%nat by lia. exact L.
  - destruct (Nat.ltb_spec l (length (st_layers st))) as [L|L]; [|exact So]. destruct (dmem _ name); [exact So|]. cbn [fst]. intros m Lm. rewrite refresh_schema. unfold refresh in *. cbn [st_layers st_schemas] in *. rewrite put_len in Lm. apply (put_keeps st _ (dset (declared_by st l) name t) (So l L) So). exact Lm.
  - destruct (Nat.ltb_spec l (length (st_layers st))) as [L|L]; [|exact So]. destruct (dmem _ name); [|exact So]. cbn [fst]. intros m Lm. rewrite refresh_schema. unfold refresh in *. cbn [st_layers st_schemas] in *. rewrite put_len in Lm. apply (put_keeps st _ (ddel (declared_by st l) name) (So l L) So). exact Lm.
Qed.
Lemma run_sound cs : forall st, sound st -> sound (drun st cs).
Proof. induction cs as [|c cs IH]; intros st H; [exact H|]. cbn [drun]. apply IH, step_sound, H. Qed.
Lemma refresh_defaults st l m : l <> m -> sl_defaults (slayer_at (refresh st l) m) = sl_defaults (slayer_at st m).
Proof. intros N. unfold refresh, slayer_at. cbn [st_layers]. rewrite nth_put_other by exact N. reflexivity. Qed.
Theorem shared cs l m name t : let st := drun (mkStore [] []) cs in (l < length (st_layers st))%nat -> (m < length (st_layers st))%nat ->
  (~ In name (dkeys (declared_by st l)) -> exists st', dstep st (DField l name t) = (st', Ok tt) /\
     declared_by st' l = declared_by st l ++ [(name, t)] /\ up_to_date st' l /\
     (sl_schema (slayer_at st m) = sl_schema (slayer_at st l) -> declared_by st' m = declared_by st l ++ [(name, t)]) /\
     (sl_schema (slayer_at st m) <> sl_schema (slayer_at st l) -> declared_by st' m = declared_by st m) /\
     (m <> l -> sl_defaults (slayer_at st' m) = sl_defaults (slayer_at st m))) /\
  (In name (dkeys (declared_by st l)) -> dstep st (DField l name t) = (st, Err TypeError)).
Proof.
  intros st L Lm. assert (So : sound st) by (apply run_sound; intros k; cbn; intros; lia). cbn [dstep]. rewrite (proj2 (Nat.ltb_lt _ _) L). split.
  - intros Nn. assert (M : dmem (declared_by st l) name = false). { destruct (dmem (declared_by st l) name) eqn:M; [|reflexivity]. apply dmem_In in M. contradiction. } rewrite M. eexists. split; [reflexivity|].
    rewrite !refresh_declared, !put_declared by (apply So; exact L). rewrite Nat.eqb_refl. assert (Ef : dget (declared_by st l) name = None) by (unfold dmem in M; destruct (dget (declared_by st l) name); [discriminate|reflexivity]). rewrite (dset_absent _ _ t Ef).
    split; [reflexivity|]. split; [|split; [|split]].
    + intros f v. rewrite refresh_declared. unfold refresh, slayer_at at 1. cbn [st_layers]. rewrite nth_put_same by exact L. cbn [sl_defaults]. apply in_defaults.
    + intros E. rewrite (proj2 (Nat.eqb_eq _ _) E). reflexivity.
    + intros E. rewrite (proj2 (Nat.eqb_neq _ _) E). reflexivity.
    + intros E. rewrite refresh_defaults by congruence. reflexivity.
  - intros Hi. apply dmem_In in Hi. rewrite Hi. reflexivity.
Qed.

(** ** a document as a mapping *)
Theorem mapping h d name kw : NoDup (dkeys (d_layers d)) ->
  (forall added, NoDup (dkeys kw) -> Forall2 gives_field kw added -> exists h1 d1 l, declare_layer h d name kw = (h1, d1, Ok l) /\
     doc_getitem d1 name = Ok l /\ l_nameof h1 l = name /\ l_fields (h_layer h1 l) = added /\ layer_iter h1 l = [] /\
     doc_contains d1 name = true /\ (forall x, x <> name -> doc_getitem d1 x = doc_getitem d x /\ doc_contains d1 x = doc_contains d x) /\
     d_texts d1 = d_texts d /\ d_props d1 = d_props d /\ NoDup (dkeys (d_layers d1))) /\
  (forall done added k g rest e, kw = done ++ (k, g) :: rest -> NoDup (dkeys done) -> Forall2 gives_field done added -> refuses g e -> declare_layer h d name kw = (h, d, Err e)).
Proof.
  intros ND. split.
  - intros added Nk F. unfold declare_layer. rewrite (set_ok [] kw added Nk F). cbn [app]. unfold add_layer. destruct (alloc_layer h (new_layer name added)) as [h1 l] eqn:Ea. exists h1, (mkDoc (d_props d) (d_texts d) (dset (d_layers d) name l)), l. split; [reflexivity|].
    unfold alloc_layer in Ea. injection Ea as <- <-. unfold doc_getitem, doc_contains, dgetE. cbn [d_layers d_texts d_props]. rewrite dget_dset_same. split; [reflexivity|].
    unfold l_nameof, layer_iter, l_numof, l_nodesof. cbn [h_layer]. unfold Model_Heap.upd. rewrite Nat.eqb_refl. cbn. split; [reflexivity|]. split; [reflexivity|]. split; [reflexivity|]. split; [unfold dmem; rewrite dget_dset_same; reflexivity|]. split; [|split; [reflexivity|split; [reflexivity|apply NoDup_dset; exact ND]]].
    intros x Nx. unfold dmem. rewrite dget_dset_other by exact Nx. split; reflexivity.
  - intros done added k g rest e -> Nd F R. unfold declare_layer. assert (G : forall fs, NoDup (dkeys fs ++ dkeys done) -> exists fs', schema_set fs (done ++ (k, g) :: rest) = (fs', Err e)).
    { clear Nd. induction F as [|[k0 g0] [k1 t] done added [E G] F IH]; intros fs N0; cbn [app schema_set].
      - apply refuses_ok in R. rewrite R. eauto.
      - cbn [fst snd] in *. subst k1. apply gives_ok in G. rewrite G. change (dkeys ((k0, g0) :: done)) with (k0 :: dkeys done) in N0. pose proof (NoDup_remove_2 _ _ _ N0) as Nk.
        destruct (dmem fs k0) eqn:M; [exfalso; apply Nk, in_or_app; left; apply dmem_In; exact M|]. apply IH. rewrite dkeys_dset, M. rewrite <- app_assoc. exact N0. }
    destruct (G [] Nd) as (fs' & ->). reflexivity.
Qed.
Theorem deleting h d name : NoDup (dkeys (d_layers d)) -> (forall k f t, declared h d k f t -> option_ok t) ->
  (doc_contains d name = true <-> exists l, doc_getitem d name = Ok l) /\
  (doc_contains d name = false -> doc_getitem d name = Err KeyError /\ doc_delitem h d name = Ok d) /\
  (doc_contains d name = true -> (exists k f t, declared h d k f t /\ k <> name /\ refers_to name t) -> doc_delitem h d name = Err DataValidationError) /\
  (doc_contains d name = true -> ~ (exists k f t, declared h d k f t /\ k <> name /\ refers_to name t) -> exists d', doc_delitem h d name = Ok d' /\
     doc_contains d' name = false /\ (forall x, x <> name -> doc_getitem d' x = doc_getitem d x) /\ d_texts d' = d_texts d /\ d_props d' = d_props d).
Proof.
  intros ND Op. destruct (remove_layer_spec h d name ND Op) as (A & B & C). unfold doc_contains, doc_getitem, doc_delitem, dgetE, dmem. pose proof (dmem_In (d_layers d) name) as M. unfold dmem in M. destruct (dget (d_layers d) name) as [l|] eqn:E.
  - assert (Hi : In name (dkeys (d_layers d))) by (apply M; reflexivity). split; [split; [eauto|reflexivity]|]. split; [discriminate|]. split; [intros _ R; rewrite (B Hi R); reflexivity|]. intros _ R. destruct (C Hi false (or_intror R)) as (d' & E' & P & T & K & (a & l0 & b & El & El')). exists d'. rewrite E'. cbn [rbind]. split; [reflexivity|].
    assert (G : dget (d_layers d') name = None). { apply dget_None. intros H. apply in_map_iff in H. destruct H as ([k l1] & Ek & H). cbn [fst] in Ek. subst k. apply K in H. destruct H as [_ H]. congruence. }
    rewrite G. split; [reflexivity|]. split; [|split; [exact T|exact P]]. intros x Nx. destruct (dget (d_layers d) x) as [lx|] eqn:Ex.
    + assert (ND' : NoDup (dkeys (d_layers d'))). { rewrite El'. rewrite El in ND. unfold dkeys in *. rewrite map_app in *. cbn [map fst] in ND. apply NoDup_remove_1 in ND. exact ND. } rewrite (dget_nodup (d_layers d') x lx ND'); [reflexivity|]. apply K. split; [apply dget_In; exact Ex|exact Nx].
    + assert (Ex' : dget (d_layers d') x = None). { apply dget_None. apply dget_None in Ex. intros H. apply Ex. apply in_map_iff in H. destruct H as ([k l1] & Ek & H). cbn [fst] in Ek. subst k. apply K in H. destruct H as [H _]. apply (in_map fst) in H. exact H. } rewrite Ex'. reflexivity.
  - assert (Hi : ~ In name (dkeys (d_layers d))) by (apply dget_None; exact E). split; [split; [discriminate|intros [l H]; discriminate]|]. split; [|split; [discriminate|discriminate]]. intros _. split; [reflexivity|]. rewrite (A Hi). reflexivity.
Qed.
Theorem maintexts d m : 
  (In (s "main") (dkeys (d_texts d)) -> assign_maintext d m = Err AssertionError /\ exists x, get_maintext d = Ok x) /\
  (~ In (s "main") (dkeys (d_texts d)) -> get_maintext d = Err KeyError /\
     match m with
     | MGStr x => exists d', assign_maintext d m = Ok d' /\ get_maintext d' = Ok x /\ d_texts d' = d_texts d ++ [(s "main", x)] /\ d_layers d' = d_layers d /\ d_props d' = d_props d
     | MGText n x => (n = s "main" -> assign_maintext d m = assign_maintext d (MGStr x)) /\ (n <> s "main" -> assign_maintext d m = Err AssertionError)
     | MGOther => assign_maintext d m = Err ValueError
     end).
Proof.
  unfold assign_maintext, get_maintext, dgetE. pose proof (dmem_In (d_texts d) (s "main")) as M. unfold dmem in *. destruct (dget (d_texts d) (s "main")) as [x0|] eqn:E.
  - split; [intros _; split; [reflexivity|eauto]|]. intros H. exfalso. apply H, M. reflexivity.
  - split; [intros H; apply M in H; discriminate|]. intros _. split; [reflexivity|]. destruct m as [x|n x|].
    + exists (add_text d (s "main") x). split; [reflexivity|]. unfold add_text. cbn [d_texts d_layers d_props]. rewrite dget_dset_same. split; [reflexivity|]. rewrite (dset_absent _ _ x E). repeat split.
    + destruct (str_eqb_spec n (s "main")) as [->|N]; split; intros H; try congruence; reflexivity.
    + reflexivity.
Qed.

(** ** repr *)
Lemma digits_split x y a b : Forall is_digit x -> Forall is_digit y -> (forall c r, a = c :: r -> ~ is_digit c) -> (forall c r, b = c :: r -> ~ is_digit c) -> a <> [] -> b <> [] -> x ++ a = y ++ b -> x = y /\ a = b.
Proof.
  intros Fx. revert y. induction Fx as [|c x D Fx IH]; intros y Fy Na Nb Ha Hb E.
  - destruct Fy as [|c y D Fy]; [auto|]. exfalso. destruct a as [|c' a]; [congruence|]. cbn in E. injection E as -> _. exact (Na _ _ eq_refl D).
  - destruct Fy as [|c' y D' Fy].
    + exfalso. destruct b as [|c' b]; [congruence|]. cbn in E. injection E as <- _. exact (Nb _ _ eq_refl D).
    + cbn in E. injection E as -> E. destruct (IH y Fy Na Nb Ha Hb E) as [-> ->]. auto.
Qed.
Theorem repr_counts d d' x : doc_repr d = Ok x -> doc_repr d' = Ok x -> length (d_layers d) = length (d_layers d') /\ length (d_texts d) = length (d_texts d').
Proof.
  assert (G : forall d x, doc_repr d = Ok x -> exists r, x = s "Document(" ++ str_int (zlen (d_layers d)) ++ s " layers, " ++ str_int (zlen (d_texts d)) ++ s " texts" ++ r).
  { intros e y H. unfold doc_repr in H. destruct (d_props e) as [| | | | | | |ps]; try discriminate. match type of H with rbind ?m _ = _ => destruct m as [l|]; [|discriminate] end. cbn [rbind] in H. apply (f_equal (fun r => match r with Ok z => z | Err _ => y end)) in H. subst y. eexists. reflexivity. }
  intros H H'. destruct (G d x H) as (r & E). destruct (G d' x H') as (r' & E'). rewrite E in E'. apply app_inv_head in E'.
  assert (P : forall k, 0 <= k -> Forall is_digit (str_int k)) by (intros k K; apply str_int_ok; exact K). assert (Z0 : forall A (l : list A), 0 <= zlen l) by (intros; unfold zlen; lia).
  assert (Sp : forall r : pystr, forall c q, s " layers, " ++ r = c :: q -> ~ is_digit c) by (intros r0 c q Q; injection Q as <- _; unfold is_digit; lia).
  assert (Sq : forall r : pystr, forall c q, s " texts" ++ r = c :: q -> ~ is_digit c) by (intros r0 c q Q; injection Q as <- _; unfold is_digit; lia).
  apply digits_split in E'; [|apply P, Z0|apply P, Z0|apply Sp|apply Sp|discriminate|discriminate]. destruct E' as [E1 E2]. apply app_inv_head in E2. apply digits_split in E2; [|apply P, Z0|apply P, Z0|apply Sq|apply Sq|discriminate|discriminate]. destruct E2 as [E2 _].
  apply str_int_inj in E1. apply str_int_inj in E2. unfold zlen in *. split; lia.
Qed.
