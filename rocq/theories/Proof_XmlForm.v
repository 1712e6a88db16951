(** The text of a tree (Model_XmlText.v) against Spec_XmlForm.v. *)
From Verif Require Import PyBase PyBaseFacts Model_Text Model_Heap Model_Layer Model_Types Model_Msgpack Model_Document Model_Codec Model_Xml Spec_XmlString Spec_XmlText Spec_XmlForm Proof_XmlText Proof_XmlText2.
From Verif Require Proof_Refused3 Spec_Xml Model_Printout.
Local Open Scope N_scope.
Local Arguments s : simpl never.

Lemma written_app x y : written (x ++ y) = written x ++ written y.
Proof. apply flat_map_app. Qed.
Lemma surrogate_is c : surrogate c = true <-> is_surrogate c.
Proof. unfold surrogate, is_surrogate. rewrite andb_true_iff, !N.leb_le. change 0xD800 with 55296. change 0xDFFF with 57343. reflexivity. Qed.
Lemma written_esc v : spelled v (written (esc_attr v)).
Proof.
  induction v as [|c v IH]; [constructor|]. unfold esc_attr. cbn [flat_map]. fold (esc_attr v). rewrite written_app. unfold esc_attr_char.
  destruct (N.eqb_spec c 38) as [->|H38]; [exact (sp_amp _ _ IH)|]. destruct (N.eqb_spec c 60) as [->|H60]; [exact (sp_lt _ _ IH)|].
  destruct (N.eqb_spec c 62) as [->|H62]; [exact (sp_gt _ _ IH)|]. destruct (N.eqb_spec c 34) as [->|H34]; [exact (sp_quot _ _ IH)|].
  destruct (N.eqb_spec c 13) as [->|H13]; [exact (sp_return _ _ IH)|]. destruct (N.eqb_spec c 10) as [->|H10]; [exact (sp_line _ _ IH)|].
  destruct (N.eqb_spec c 9) as [->|H9]; [exact (sp_tab _ _ IH)|].
  unfold written at 1. cbn [flat_map]. rewrite app_nil_r. destruct (surrogate c) eqn:E.
  - rewrite <- !app_assoc. apply sp_surrogate; [apply surrogate_is; exact E| |exact IH]. apply Proof_Refused3.int_text_is. reflexivity.
  - cbn [app]. apply sp_other; [|intros H; apply surrogate_is in H; congruence|exact IH]. cbn [In]. intuition congruence.
Qed.
Lemma spelled_fun : forall v x, spelled v x -> forall y, spelled v y -> x = y.
Proof.
  induction 1 as [|v x H IH|v x H IH|v x H IH|v x H IH|v x H IH|v x H IH|v x H IH|c n v x S N H IH|c v x NI S H IH]; intros y Hy; inversion Hy; subst;
    try reflexivity; try (f_equal; apply IH; assumption);
    try (match goal with N : ~ In _ _ |- _ => exfalso; apply N; cbn [In]; tauto end);
    try (match goal with S : is_surrogate _ |- _ => exfalso; unfold is_surrogate in S; lia end); try contradiction.
  match goal with A : Spec_Xml.int_text _ ?a, B : Spec_Xml.int_text _ ?b |- _ => apply Proof_Refused3.int_text_is in A; apply Proof_Refused3.int_text_is in B; subst end. do 3 f_equal. apply IH. assumption.
Qed.
Lemma plain_written n : Forall xml_char n -> written n = n.
Proof. apply legal_written. Qed.
Lemma attr_legal k n : attr_name k n -> Forall xml_char n.
Proof. destruct 1 as [x H _|x H]; [apply ncname_legal; exact H|]. apply Forall_app. split; [apply legalb_ok; reflexivity|apply ncname_legal; exact H]. Qed.
Lemma attrs_text qn : (forall q n, dget qn q = Some n -> raw q n) -> forall d, (forall q, In q (dkeys d) -> dmem qn q = true) ->
  Forall (fun kv => exists n, attr_name (fst kv) n) d -> exists items, mapM (attr_text qn) d = Ok items /\ attrs_form d (written (List.concat items)).
Proof.
  intros Hq. induction d as [|[k v] d IH]; intros Hk Hd; [exists []; split; [reflexivity|constructor]|]. inversion Hd as [|? ? (n & Hn) Hd']. subst. cbn [fst snd] in *.
  destruct IH as (items & E & Hi); [intros q H; apply Hk; right; exact H|exact Hd'|].
  assert (M : dmem qn k = true) by (apply Hk; left; reflexivity).
  assert (G : exists n', dget qn k = Some n') by (unfold dmem in M; destruct (dget qn k) as [n'|]; [exists n'; reflexivity|discriminate]).
  destruct G as (n' & G). assert (n' = n) by (eapply raw_fun; [apply Hq; exact G|apply attr_raw; exact Hn]). subst n'.
  cbn [mapM]. unfold attr_text at 1. cbn [fst snd]. unfold dgetE. rewrite G. cbn [rbind]. rewrite E. cbn [rbind]. eexists. split; [reflexivity|].
  cbn [List.concat]. rewrite !written_app, <- !app_assoc. rewrite (plain_written n) by (eapply attr_legal; exact Hn).
  change (written (s " ")) with (s " "). change (written (s "=""")) with (s "="""). change (written (s """")) with (s """").
  apply af_cons; [exact Hn|apply written_esc|exact Hi].
Qed.
Lemma well_named_inv t d kids : well_named (Elem t d kids) -> ncname t /\ Forall (fun kv => exists n, attr_name (fst kv) n) d /\ Forall well_named kids.
Proof. intros H. inversion H; subst. auto. Qed.
Lemma tree_text qn : (forall q n, dget qn q = Some n -> raw q n) -> forall e, well_named e -> (forall q, In q (names e) -> dmem qn q = true) ->
  exists x, serialize qn [] e = Ok x /\ tree_form e (written x).
Proof.
  intros Hq. apply (xml_rect' (fun e => well_named e -> (forall q, In q (names e) -> dmem qn q = true) -> exists x, serialize qn [] e = Ok x /\ tree_form e (written x))).
  intros t d kids IH He Hn. apply well_named_inv in He. destruct He as (Ht & Ha & Hk). cbn [names] in Hn.
  assert (G : dget qn t = Some t).
  { assert (M : dmem qn t = true) by (apply Hn; left; reflexivity). unfold dmem in M. destruct (dget qn t) as [n'|] eqn:E; [|discriminate].
    f_equal. eapply raw_fun; [apply Hq; exact E|]. apply rw_plain. exact (proj2 (ncname_brace t Ht)). }
  destruct (attrs_text qn Hq d) as (items & E & Hi); [intros q H; apply Hn; right; apply in_or_app; left; exact H|exact Ha|].
  rewrite serialize_eq. unfold dgetE. rewrite G. cbn [rbind]. rewrite E. cbn [rbind]. change (spaces_text []) with (@nil N). cbv zeta.
  assert (K : exists ks, mapM (serialize qn []) kids = Ok ks /\ trees_form kids (written (List.concat ks))).
  { assert (Hn' : forall q, In q (flat_map names kids) -> dmem qn q = true) by (intros q H; apply Hn; right; apply in_or_app; right; exact H).
    clear - IH Hk Hn'. induction IH as [|e kids H IH IH']; [exists []; split; [reflexivity|constructor]|]. inversion Hk. subst.
    destruct H as (x & E & Hx); [assumption|intros q Hq; apply Hn'; cbn [flat_map]; apply in_or_app; left; exact Hq|].
    destruct IH' as (ks & E' & Hks); [assumption|intros q Hq; apply Hn'; cbn [flat_map]; apply in_or_app; right; exact Hq|].
    exists (x :: ks). cbn [mapM]. rewrite E. cbn [rbind]. rewrite E'. cbn [rbind]. split; [reflexivity|]. cbn [List.concat]. rewrite written_app. constructor; assumption. }
  assert (Wt : written t = t) by (apply plain_written, ncname_legal; exact Ht).
  destruct K as (ks & Ek & Hc). destruct kids as [|k kids].
  - eexists. split; [reflexivity|]. cbn [app]. rewrite !written_app, Wt, <- !app_assoc. change (written (s "<")) with (s "<"). change (written (s " />")) with (s " />"). apply tf_empty; assumption.
  - rewrite Ek. cbn [rbind]. eexists. split; [reflexivity|]. cbn [app]. rewrite !written_app, Wt, <- !app_assoc. change (written (s "<")) with (s "<"). change (written (s ">")) with (s ">"). change (written (s "</")) with (s "</").
    apply tf_full; assumption.
Qed.
Lemma well_named_names : forall e, well_named e -> Forall (fun q => exists n, raw q n) (names e).
Proof.
  apply (xml_rect' (fun e => well_named e -> Forall (fun q => exists n, raw q n) (names e))). intros t d kids IH He. apply well_named_inv in He.
  destruct He as (Ht & Ha & Hk). cbn [names]. constructor; [exists t; apply rw_plain; exact (proj2 (ncname_brace t Ht))|]. apply Forall_app. split.
  - unfold dkeys. apply Forall_map. eapply Forall_impl; [|exact Ha]. intros kv (n & Hn). exists n. apply attr_raw. exact Hn.
  - clear - IH Hk. induction IH as [|e kids H IH IH']; [constructor|]. inversion Hk; subst. cbn [flat_map]. apply Forall_app. split; [apply H; assumption|apply IH'; assumption].
Qed.
Lemma attrs_fun : forall d x, attrs_form d x -> forall y, attrs_form d y -> x = y.
Proof.
  induction 1 as [|k n v x d y Hn Hv Hd IH]; intros z Hz; inversion Hz; subst; [reflexivity|].
  match goal with A : attr_name k ?m, B : spelled v ?w, D : attrs_form d ?u |- _ => assert (n = m) by (eapply raw_fun; apply attr_raw; eassumption); assert (x = w) by (eapply spelled_fun; eassumption); assert (y = u) by (apply IH; exact D) end.
  subst. reflexivity.
Qed.
Lemma tree_fun : forall e x y, tree_form e x -> tree_form e y -> x = y.
Proof.
  apply (xml_rect' (fun e => forall x y, tree_form e x -> tree_form e y -> x = y)). intros t d kids IH x y Hx Hy.
  assert (K : forall a b, trees_form kids a -> trees_form kids b -> a = b).
  { clear - IH. induction IH as [|e kids H IH IH']; intros a b Ha Hb; inversion Ha; inversion Hb; subst; [reflexivity|]. f_equal; [apply H|apply IH']; assumption. }
  inversion Hx; subst; inversion Hy; subst; repeat match goal with A : attrs_form ?d ?a, B : attrs_form ?d ?b |- _ => lazymatch a with b => fail | _ => assert (a = b) by (eapply attrs_fun; eassumption); subst; clear B end end; try reflexivity.
  match goal with A : trees_form _ ?a, B : trees_form _ ?b |- _ => lazymatch a with b => fail | _ => assert (a = b) by (apply K; assumption); subst end end. reflexivity.
Qed.
Lemma write_form e x : well_named e -> xml_write e = Ok x <-> tree_form e x.
Proof.
  intros He. destruct (see_raw (names e) []) as (qn & E & Hq & Hm); [intros q n H; discriminate|apply well_named_names; exact He|].
  assert (E' : namespaces e = Ok (qn, [])) by exact E. unfold xml_write. rewrite E'. cbn [rbind]. destruct (tree_text qn Hq e He) as (y & Ey & Hy); [intros q H; apply Hm; left; exact H|].
  rewrite Ey. cbn [rbind]. split; [intros H; injection H as <-; exact Hy|]. intros H. f_equal. eapply tree_fun; eassumption.
Qed.
