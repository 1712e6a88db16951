(** Single edits of a document of the Java port. *)
From Verif Require Import PyBase PyBaseFacts Model_Text Model_Types Model_JUnits Model_JCodec Model_JEdit Spec_Types Spec_JCodec Spec_JEncode Spec_JEdit Proof_JGroup Proof_JEdit Proof_JEdit2.
Local Open Scope Z_scope.

Lemma schema_build_exact l : forall acc, NoDup (dkeys acc) ->
  (NoDup (dkeys (acc ++ l)) -> schema_build acc l = Ok (acc ++ l)) /\ (~ NoDup (dkeys (acc ++ l)) -> schema_build acc l = Err ValueError).
Proof.
  induction l as [|[f t] l IH]; intros acc Ha; cbn [schema_build].
  - rewrite app_nil_r. split; [reflexivity|contradiction].
  - assert (K : acc ++ (f, t) :: l = (acc ++ [(f, t)]) ++ l) by (rewrite <- app_assoc; reflexivity). destruct (dmem acc f) eqn:E.
    + split; [|reflexivity]. intros H. exfalso. apply dmem_In in E. unfold dkeys in *. rewrite map_app in H. cbn [map fst] in H. apply NoDup_remove_2 in H. apply H, in_or_app. auto.
    + assert (N1 : NoDup (dkeys (acc ++ [(f, t)]))).
      { unfold dkeys. rewrite map_app. cbn [map fst]. apply NoDup_snoc; [exact Ha|]. intros Hin. apply (dmem_In acc f) in Hin. congruence. }
      rewrite K. apply IH. exact N1.
Qed.
Theorem layer_added j x l : (NoDup (dkeys l) -> jd_add_layer j x l = (mkJDoc (jd_props j) (jd_texts j) (dset (jd_layers j) x (l, [])), Ok tt)) /\
  (~ NoDup (dkeys l) -> jd_add_layer j x l = (j, Err ValueError)).
Proof.
  unfold jd_add_layer. destruct (schema_build_exact l [] (NoDup_nil _)) as [A B]. split; intros H; [rewrite (A H)|rewrite (B H)]; reflexivity.
Qed.
(** only the layer x is different *)
Lemma one_layer j x m l : dget (jd_layers j) x = Some l ->
  let k := with_layers j (dset (jd_layers j) x m) in
  jd_props k = jd_props j /\ jd_texts k = jd_texts j /\ dget (jd_layers k) x = Some m /\ dkeys (jd_layers k) = dkeys (jd_layers j) /\ forall y, y <> x -> dget (jd_layers k) y = dget (jd_layers j) y.
Proof.
  intros E k. split; [reflexivity|]. split; [reflexivity|]. unfold k, with_layers; cbn [jd_layers]. split; [apply dget_dset_same|]. split.
  - rewrite dkeys_dset. unfold dmem. rewrite E. reflexivity.
  - intros y Hy. apply dget_dset_other. exact Hy.
Qed.
Theorem node_added j x fs rows l : dget (jd_layers j) x = Some (fs, rows) ->
  (NoDup (dkeys l) /\ Forall (fun fv => exists t, dget fs (fst fv) = Some t /\ describes t (snd fv)) l ->
     exists k, jd_add_node j x l = (k, Ok tt) /\ jd_props k = jd_props j /\ jd_texts k = jd_texts j /\ dget (jd_layers k) x = Some (fs, rows ++ [l]) /\
       dkeys (jd_layers k) = dkeys (jd_layers j) /\ forall y, y <> x -> dget (jd_layers k) y = dget (jd_layers j) y) /\
  (~ (NoDup (dkeys l) /\ Forall (fun fv => exists t, dget fs (fst fv) = Some t /\ describes t (snd fv)) l) -> exists e, jd_add_node j x l = (j, Err e)).
Proof.
  intros E. unfold jd_add_node. rewrite E. split; intros H.
  - assert (B : node_build fs l = Ok l) by (apply build_exact; tauto). rewrite B. eexists. split; [reflexivity|]. exact (one_layer j x (fs, rows ++ [l]) _ E).
  - destruct (node_build fs l) as [r|e] eqn:B; [|eauto]. apply build_exact in B. tauto.
Qed.
Lemma without_ddel {A} (d : dict A) f : NoDup (dkeys d) -> without (eq f) d (ddel d f).
Proof.
  assert (Z : forall q : dict A, ~ In f (dkeys q) -> without (eq f) q q).
  { induction q as [|[a b] q IH]; intros H; [constructor|]. apply wo_keep; [intros ->; apply H; left; reflexivity|]. apply IH. intros Hq. apply H. right. exact Hq. }
  induction d as [|[a b] d IH]; cbn [ddel]; intros H; [constructor|]. inversion H as [|? ? H1 H2]; subst. destruct (str_eqb f a) eqn:E.
  - apply str_eqb_eq in E. subst a. apply wo_drop; [reflexivity|]. apply Z. exact H1.
  - apply wo_keep; [|apply IH; exact H2]. intros ->. rewrite str_eqb_refl in E. discriminate.
Qed.
Theorem field_removed j x fs rows f : all_declared j -> dget (jd_layers j) x = Some (fs, rows) ->
  (In f (dkeys fs) -> exists k fs' rows', jd_remove_field j x f = (k, Ok tt) /\ jd_props k = jd_props j /\ jd_texts k = jd_texts j /\ dget (jd_layers k) x = Some (fs', rows') /\
     without (eq f) fs fs' /\ Forall2 (without (eq f)) rows rows' /\ dkeys (jd_layers k) = dkeys (jd_layers j) /\ forall y, y <> x -> dget (jd_layers k) y = dget (jd_layers j) y) /\
  (~ In f (dkeys fs) -> jd_remove_field j x f = (j, Ok tt)).
Proof.
  intros [D1 D2] E. destruct (D2 _ _ _ (dget_In _ _ E)) as (D3 & _ & D4). unfold jd_remove_field. rewrite E. unfold drop_field. cbn [fst snd]. split; intros H.
  - rewrite (proj2 (dmem_In _ _) H). eexists _, _, _. split; [reflexivity|]. destruct (one_layer j x (ddel fs f, map (fun row => node_remove row f) rows) _ E) as (A & B & C & K & F).
    split; [exact A|]. split; [exact B|]. split; [exact C|]. split; [apply without_ddel; exact D3|]. split; [|split; [exact K|exact F]].
    clear - D4. induction D4 as [|row rows' R1 R2 IH]; constructor; [apply without_ddel; exact R1|exact IH].
  - destruct (dmem fs f) eqn:M; [apply dmem_In in M; contradiction|]. rewrite dset_self by exact E. destruct j; reflexivity.
Qed.
Theorem prop_set j k v : exists m, run_edit (SetProp k v) j = (m, Ok tt) /\ jd_texts m = jd_texts j /\ jd_layers m = jd_layers j /\
  dget (jd_props m) k = Some v /\ forall g, g <> k -> dget (jd_props m) g = dget (jd_props j) g.
Proof.
  eexists. split; [reflexivity|]. split; [reflexivity|]. split; [reflexivity|]. cbn [jd_set_prop jd_props]. split; [apply dget_dset_same|]. intros g Hg. apply dget_dset_other. exact Hg.
Qed.
