(** Proofs for Spec_JEdit.v. *)
From Verif Require Import PyBase PyBaseFacts Model_Text Model_Heap Model_Layer Model_Types Model_JUnits Model_JCodec Model_JEncode Model_JEdit
  Spec_Msgpack Spec_JUnits Spec_JCodec Spec_JEncode Spec_JEdit.
Local Open Scope Z_scope.

(** ** types *)
Lemma jname_eqb_eq a b : jname_eqb a b = true -> a = b.
Proof. destruct a as [|t|], b as [|u|]; try discriminate; [reflexivity| |reflexivity]. destruct t, u; try discriminate; reflexivity. Qed.
Lemma equals_plain n t : jt_equals (mkJT n []) t = true -> t = mkJT n [].
Proof.
  unfold jt_equals. cbn [ty_name ty_args]. intros H. apply andb_prop in H as [H _]. apply andb_prop in H as [H1 H2]. apply jname_eqb_eq in H1. apply Z.eqb_eq in H2.
  destruct t as [m [|a r]]; cbn in *; [now subst|]. unfold zlen in H2. cbn in H2. lia.
Qed.
Lemma equals_one tn k x t : jt_equals (ty1 tn k x) t = true -> t = mkJT (JT tn) [(k, JStr x)].
Proof.
  unfold jt_equals, ty1. cbn [ty_name ty_args forallb fst snd]. intros H. apply andb_prop in H as [H H3]. apply andb_prop in H as [H1 H2]. apply jname_eqb_eq in H1. apply Z.eqb_eq in H2.
  destruct t as [m [|[k' w] [|b r]]]; cbn in *; unfold zlen in H2; cbn in H2; try lia. subst m. rewrite Bool.andb_true_r in H3.
  destruct (str_eqb k k') eqn:E; [|discriminate]. apply str_eqb_eq in E. subst k'. destruct w; try discriminate. apply str_eqb_eq in H3. now subst.
Qed.
Lemma accepted_describes v u t : jv_type v = Ok u -> jt_equals u t = true -> describes t v.
Proof.
  destruct v as [i|i|b|b|x|x|y x|c p q|x p|x [|p ps]|x p q|is|p q]; cbn [jv_type]; intros [= <-] H;
  (apply equals_plain in H || apply equals_one in H); subst t; constructor. discriminate.
Qed.
Lemma describes_accepted v t : describes t v -> exists u, jv_type v = Ok u /\ jt_equals u t = true.
Proof.
  destruct 1 as [| | | | | | | | |x ps Hp|]; try (eexists; split; [reflexivity|]; unfold jt_equals; cbn; rewrite ?str_eqb_refl; reflexivity).
  destruct ps as [|p ps]; [contradiction|]. eexists; split; [reflexivity|]; unfold jt_equals; cbn; rewrite ?str_eqb_refl; reflexivity.
Qed.

(** ** the builder *)
Lemma dkeys_app {A} (a b : dict A) : dkeys (a ++ b) = dkeys a ++ dkeys b.
Proof. apply map_app. Qed.
Lemma NoDup_mid {A} (a : list A) x b : NoDup (a ++ x :: b) -> ~ In x a.
Proof. intros H Hin. apply NoDup_remove_2 in H. apply H, in_or_app. now left. Qed.
Lemma puts_exact fs l : forall vals r, NoDup (dkeys vals) ->
  (builder_puts fs vals l = Ok r <-> r = vals ++ l /\ NoDup (dkeys (vals ++ l)) /\ Forall (fun fv => exists t, dget fs (fst fv) = Some t /\ describes t (snd fv)) l).
Proof.
  induction l as [|[f v] l IH]; intros vals r Hn; cbn.
  - rewrite app_nil_r. split; [intros [= <-]; auto|]. now intros (-> & _).
  - unfold builder_put. split.
    + destruct (dget fs f) as [t|] eqn:Ef; [|discriminate]. destruct (jv_type v) as [u|] eqn:Eu; cbn; [|discriminate].
      destruct (jt_equals u t) eqn:Ee; cbn; [|discriminate]. destruct (dmem vals f) eqn:Em; [discriminate|]. cbn. intros H.
      apply IH in H as (-> & H2 & H3).
      * rewrite <- app_assoc in H2 |- *. split; [reflexivity|]. split; [exact H2|]. constructor; [|exact H3]. exists t. split; [exact Ef|]. eapply accepted_describes; eassumption.
      * rewrite dkeys_app. apply NoDup_snoc; [exact Hn|]. cbn [fst]. intros Hin. apply dmem_In in Hin. congruence.
    + intros (-> & H2 & H3). inversion H3 as [|a b [t [Ht Hd]] H4]; subst. cbn in Ht, Hd. rewrite Ht. destruct (describes_accepted _ _ Hd) as (u & Eu & Ee). rewrite Eu. cbn. rewrite Ee. cbn.
      assert (Hf : ~ In f (dkeys vals)). { rewrite dkeys_app in H2. exact (NoDup_mid _ _ _ H2). }
      destruct (dmem vals f) eqn:Em; [apply dmem_In in Em; contradiction|]. cbn. apply IH.
      * rewrite dkeys_app. apply NoDup_snoc; assumption.
      * rewrite <- app_assoc. auto.
Qed.
Lemma build_exact fs l r : node_build fs l = Ok r <-> r = l /\ NoDup (dkeys l) /\ Forall (fun fv => exists t, dget fs (fst fv) = Some t /\ describes t (snd fv)) l.
Proof. unfold node_build. rewrite puts_exact by constructor. reflexivity. Qed.
Definition user_value (v : jv) : Prop := match v with JHold _ | JHoldSpan _ _ => False | JNodes _ [] => False | _ => True end.
Lemma puts_err fs l : Forall (fun fv => user_value (snd fv)) l -> forall vals e, builder_puts fs vals l = Err e -> e = ValueError.
Proof.
  induction 1 as [|[f v] l Hv Hl IH]; intros vals e; cbn; [discriminate|]. unfold builder_put. destruct (dget fs f) as [t|]; cbn; [|congruence].
  assert (Hu : exists u, jv_type v = Ok u). { destruct v as [i|i|b|b|x|x|y x|c p q|x p|x [|p ps]|x p q|is|p q]; cbn in *; try contradiction; eauto. }
  destruct Hu as [u ->]. cbn. destruct (jt_equals u t); cbn; [|congruence]. destruct (dmem vals f); cbn; [congruence|]. apply IH.
Qed.

(** an array of no nodes, in a field of the layer, after values that were accepted *)
Lemma puts_empty fs l : forall vals, builder_puts fs vals l = Err IndexError <->
  exists pre f x post vals', l = pre ++ (f, JNodes x []) :: post /\ builder_puts fs vals pre = Ok vals' /\ dget fs f <> None.
Proof.
  induction l as [|[f v] l IH]; intros vals; cbn [builder_puts].
  - split; [discriminate|]. intros ([|] & f & x & post & vals' & E & _); discriminate E.
  - split.
    + intros H. destruct (builder_put fs vals f v) as [vals1|e] eqn:P; cbn [rbind] in H.
      * apply IH in H. destruct H as (pre & g & x & post & vals' & -> & B & D). exists ((f, v) :: pre), g, x, post, vals'. split; [reflexivity|]. split; [cbn [builder_puts]; rewrite P; exact B|exact D].
      * injection H as ->. exists [], f. unfold builder_put in P. destruct (dget fs f) as [t|] eqn:D; [|discriminate]. destruct (jv_type v) as [u|e] eqn:T; cbn [rbind] in P.
        { destruct (negb (jt_equals u t)); [discriminate|]. destruct (dmem vals f); discriminate. }
        injection P as ->. destruct v as [i|i|b|b|x|x|y x|c p q|x p|x [|p ps]|x p q|is|p q]; cbn in T; try discriminate. exists x, l, vals. split; [reflexivity|]. split; [reflexivity|discriminate].
    + intros (pre & g & x & post & vals' & E & B & D). destruct pre as [|[f0 v0] pre]; cbn [app] in E; injection E as -> -> ->.
      * unfold builder_put. destruct (dget fs g) as [t|]; [reflexivity|contradiction].
      * cbn [builder_puts] in B. destruct (builder_put fs vals f0 v0) as [vals1|e]; cbn [rbind] in *; [|discriminate]. apply IH. exists pre, g, x, post, vals'. auto.
Qed.

(** ** fields removed *)
Lemma ddel_filter {A} (d : dict A) f : NoDup (dkeys d) -> ddel d f = filter (fun kv => negb (str_eqb f (fst kv))) d.
Proof.
  induction d as [|[k v] d IH]; intros H; [reflexivity|]. cbn. inversion H as [|a b Hk Hd]; subst. destruct (str_eqb f k) eqn:E; cbn; [|now rewrite IH].
  apply str_eqb_eq in E. subst k. rewrite <- IH by exact Hd. symmetry. apply ddel_absent. now apply dget_None.
Qed.
Lemma filter_filter {A} (p q : A -> bool) l : filter p (filter q l) = filter (fun x => p x && q x) l.
Proof. induction l as [|a l IH]; [reflexivity|]. cbn. destruct (q a); cbn; rewrite ?Bool.andb_true_r, ?Bool.andb_false_r, IH; destruct (p a); reflexivity. Qed.
Definition kept {A} (fields : list pystr) (kv : pystr * A) : bool := negb (existsb (fun f => str_eqb f (fst kv)) fields).
Lemma NoDup_dfilter {A} (p : pystr * A -> bool) d : NoDup (dkeys d) -> NoDup (dkeys (filter p d)).
Proof.
  induction d as [|a d IH]; intros H; [constructor|]. cbn. inversion H as [|x y Hk Hd]; subst. destruct (p a); [|auto]. cbn. constructor; [|auto].
  intros Hin. apply Hk. unfold dkeys in *. apply in_map_iff in Hin as (b & Hb & Hin). apply filter_In in Hin as [Hin _]. apply in_map_iff. eauto.
Qed.
Lemma drop_fields_exact fields : forall fs rows, NoDup fields -> incl fields (dkeys fs) -> NoDup (dkeys fs) -> Forall (fun row => NoDup (dkeys row)) rows ->
  drop_fields fields (fs, rows) = (filter (kept fields) fs, map (filter (kept fields)) rows).
Proof.
  induction fields as [|f fields IH]; intros fs rows Hf Hi Hn Hr.
  - cbn. f_equal.
    + symmetry. induction fs as [|a fs IHf]; [reflexivity|]. cbn. inversion Hn; subst. f_equal. apply IHf; [|assumption]. intros x [].
    + clear. induction rows as [|r rows IH]; [reflexivity|]. cbn. f_equal; [|exact IH]. clear. induction r as [|a r IH]; [reflexivity|]. cbn. now f_equal.
  - unfold drop_fields in *. cbn [fold_left]. unfold drop_field at 2. cbn [fst snd]. rewrite (proj2 (dmem_In fs f)) by (apply Hi; now left). unfold node_remove.
    rewrite (ddel_filter fs f Hn). inversion Hf as [|a b Hnf Hf']; subst.
    assert (E : map (fun row : dict jv => ddel row f) rows = map (filter (fun kv => negb (str_eqb f (fst kv)))) rows).
    { apply map_ext_in. intros row Hin. apply ddel_filter. rewrite Forall_forall in Hr. auto. }
    rewrite E, IH.
    + rewrite filter_filter, map_map. f_equal.
      * apply filter_ext. intros kv. unfold kept. cbn. destruct (str_eqb f (fst kv)); [apply Bool.andb_false_r|apply Bool.andb_true_r].
      * apply map_ext. intros row. rewrite filter_filter. apply filter_ext. intros kv. unfold kept. cbn. destruct (str_eqb f (fst kv)); [apply Bool.andb_false_r|apply Bool.andb_true_r].
    + exact Hf'.
    + intros x Hx. assert (Hxf : In x (dkeys fs)) by (apply Hi; now right). unfold dkeys in *. apply in_map_iff in Hxf as ([k t] & Hk & Hin). cbn in Hk. subst k.
      apply in_map_iff. exists (x, t). split; [reflexivity|]. apply filter_In. split; [exact Hin|]. cbn. rewrite str_eqb_neq; [reflexivity|]. intros ->. contradiction.
    + now apply NoDup_dfilter.
    + apply Forall_forall. intros r Hin. apply in_map_iff in Hin as (row & <- & Hin). apply NoDup_dfilter. rewrite Forall_forall in Hr. auto.
Qed.
Lemma without_filter {A} (bad : pystr -> Prop) p (d : dict A) : (forall kv, In kv d -> p kv = true <-> ~ bad (fst kv)) -> (forall kv, In kv d -> p kv = false -> bad (fst kv)) -> without bad d (filter p d).
Proof.
  induction d as [|[k v] d IH]; intros H1 H2; [constructor|]. cbn. destruct (p (k, v)) eqn:E; [apply wo_keep|apply wo_drop].
  - apply (H1 (k, v)); [now left|exact E].
  - apply IH; intros; [apply H1|apply H2]; auto; now right.
  - apply (H2 (k, v)); [now left|exact E].
  - apply IH; intros; [apply H1|apply H2]; auto; now right.
Qed.
Lemma kept_without {A} (bad : pystr -> Prop) fields (d : dict A) : (forall f, In f fields <-> bad f) -> without bad d (filter (kept fields) d).
Proof.
  intros H. assert (E : forall kv : pystr * A, existsb (fun f => str_eqb f (fst kv)) fields = true <-> bad (fst kv)).
  { intros kv. rewrite existsb_exists, <- H. split; [intros (f & Hf & He); apply str_eqb_eq in He; now subst|]. intros Hf. exists (fst kv). split; [exact Hf|apply str_eqb_refl]. }
  apply without_filter; intros kv _; unfold kept.
  - rewrite Bool.negb_true_iff. rewrite <- E. destruct (existsb _ fields); intuition congruence.
  - rewrite Bool.negb_false_iff. apply E.
Qed.
Lemma without_none {A} (bad : pystr -> Prop) (d : dict A) : (forall f, ~ bad f) -> without bad d d.
Proof. intros H. induction d as [|[k v] d IH]; [constructor|apply wo_keep; auto]. Qed.

(** ** which fields refer *)
Section REFERS.
Variables (names : list tname) (key x : pystr) (P : jdtype -> Prop).
Hypothesis decides : forall t, made_type t -> exists b, t_refers names key x t = Ok b /\ (b = true <-> P t).
Lemma any_refers_ok fs : (forall f t, In (f, t) fs -> made_type t) -> exists b, any_refers names key x fs = Ok b /\ (b = true <-> exists f t, In (f, t) fs /\ P t).
Proof.
  induction fs as [|[f t] fs IH]; intros H.
  - exists false. split; [reflexivity|]. split; [discriminate|]. intros (f & t & [] & _).
  - cbn. destruct (decides t) as (b & -> & Hb); [apply (H f); now left|]. cbn. destruct b.
    + exists true. split; [reflexivity|]. split; [|auto]. intros _. exists f, t. split; [now left|]. now apply Hb.
    + destruct IH as (b & -> & Hb'); [intros; eapply H; right; eassumption|]. exists b. split; [reflexivity|]. rewrite Hb'. split.
      * intros (g & u & Hin & Hu). exists g, u. split; [now right|exact Hu].
      * intros (g & u & [[= <- <-]|Hin] & Hu); [|eauto]. apply Hb in Hu. discriminate.
Qed.
Lemma ref_fields_ok fs : NoDup (dkeys fs) -> (forall f t, In (f, t) fs -> made_type t) -> exists l, ref_fields names key x fs = Ok l /\ NoDup l /\ incl l (dkeys fs) /\ (forall f, In f l <-> of_type P fs f).
Proof.
  induction fs as [|[f t] fs IH]; intros Hn H.
  - exists []. split; [reflexivity|]. split; [constructor|]. split; [intros a []|]. intros g. split; [intros []|]. intros (u & [] & _).
  - cbn. inversion Hn as [|a c Hk Hd]; subst. destruct (decides t) as (b & -> & Hb); [apply (H f); now left|]. cbn.
    destruct IH as (l & -> & H1 & H2 & H3); [exact Hd|intros; eapply H; right; eassumption|]. cbn. exists (if b then f :: l else l). split; [reflexivity|]. destruct b.
    + split; [constructor; [intros Hin; apply Hk, H2, Hin|exact H1]|]. split; [intros a [<-|Ha]; [now left|right; auto]|]. intros g. split.
      * intros [<-|Hg]; [exists t; split; [now left|now apply Hb]|]. apply H3 in Hg as (u & Hu & HP). exists u. split; [now right|exact HP].
      * intros (u & [[= <- <-]|Hu] & HP); [now left|]. right. apply H3. exists u. auto.
    + split; [exact H1|]. split; [intros a Ha; right; auto|]. intros g. split.
      * intros Hg. apply H3 in Hg as (u & Hu & HP). exists u. split; [now right|exact HP].
      * intros (u & [[= <- <-]|Hu] & HP); [apply Hb in HP; discriminate|]. apply H3. exists u. auto.
Qed.
Definition has_ref (kl : pystr * (dict jdtype * list (dict jv))) : bool := match any_refers names key x (fst (snd kl)) with Ok b => b | Err _ => false end.
Lemma has_ref_ok kl : (forall f t, In (f, t) (fst (snd kl)) -> made_type t) -> has_ref kl = true <-> exists f t, In (f, t) (fst (snd kl)) /\ P t.
Proof. destruct kl as [k [fs rows]]. cbn [fst snd]. intros H. unfold has_ref. cbn [fst snd]. destruct (any_refers_ok _ H) as (b & -> & Hb). exact Hb. Qed.
Lemma ref_layers_ok ls : (forall k fs rows f t, In (k, (fs, rows)) ls -> In (f, t) fs -> made_type t) -> ref_layers names key x ls = Ok (filter has_ref ls).
Proof.
  induction ls as [|[k [fs rows]] ls IH]; intros H; [reflexivity|]. cbn. unfold has_ref at 1. cbn. destruct (any_refers_ok fs) as (b & -> & _); [intros; eapply H; [left; reflexivity|eassumption]|].
  cbn. rewrite IH by (intros; eapply H; [right; eassumption|eassumption]). reflexivity.
Qed.
End REFERS.
Lemma decides_text c t : made_type t -> exists b, t_refers [TSpan] (s "context") c t = Ok b /\ (b = true <-> about_text c t).
Proof.
  unfold t_refers, about_text, argument. intros H. destruct H as [t Ht|d|y|t y Ht]; cbn [ty_name ty_args].
  - exists false. split; [|split; [discriminate|intros [_ H]; discriminate]]. repeat (destruct Ht as [<-|Ht]; [reflexivity|]). destruct Ht.
  - eexists. split; [reflexivity|]. split.
    + intros H. apply str_eqb_eq in H. subst. split; reflexivity.
    + intros [_ H]. vm_compute in H. injection H as ->. apply str_eqb_refl.
  - exists false. split; [reflexivity|]. split; [discriminate|intros [H _]; discriminate].
  - exists false. repeat (destruct Ht as [<-|Ht]; [split; [reflexivity|]; split; [discriminate|intros [H _]; discriminate]|]). destruct Ht.
Qed.
Lemma decides_layer x t : made_type t -> exists b, t_refers [TNodeRef; TNodeRefMany] (s "layer") x t = Ok b /\ (b = true <-> about_layer x t).
Proof.
  unfold t_refers, about_layer, argument. intros H. destruct H as [t Ht|d|y|t y Ht]; cbn [ty_name ty_args].
  - exists false. split; [|split; [discriminate|intros [_ H]; discriminate]]. repeat (destruct Ht as [<-|Ht]; [reflexivity|]). destruct Ht.
  - exists false. split; [reflexivity|]. split; [discriminate|intros [[H|H] _]; discriminate].
  - exists false. split; [reflexivity|]. split; [discriminate|intros [[H|H] _]; discriminate].
  - destruct Ht as [<-|[<-|[<-|[]]]].
    + eexists. split; [reflexivity|]. split; [intros H; apply str_eqb_eq in H; subst; split; [now left|reflexivity]|]. intros [_ H]. vm_compute in H. injection H as ->. apply str_eqb_refl.
    + eexists. split; [reflexivity|]. split; [intros H; apply str_eqb_eq in H; subst; split; [now right|reflexivity]|]. intros [_ H]. vm_compute in H. injection H as ->. apply str_eqb_refl.
    + exists false. split; [reflexivity|]. split; [discriminate|intros [[H|H] _]; discriminate].
Qed.

(** ** removal *)
Section REMOVE.
Variables (names : list tname) (key x : pystr) (P : jdtype -> Prop) (j : jdoc).
Hypothesis decides : forall t, made_type t -> exists b, t_refers names key x t = Ok b /\ (b = true <-> P t).
Hypothesis D : all_declared j.
Let spans := has_ref [TSpan] (s "context") x.
Lemma layers_types k fs rows f t : In (k, (fs, rows)) (jd_layers j) -> In (f, t) fs -> made_type t.
Proof. intros H Hf. destruct D as [_ D']. destruct (D' _ _ _ H) as (_ & D2 & _). eauto. Qed.
Lemma span_layers : ref_layers [TSpan] (s "context") x (jd_layers j) = Ok (filter spans (jd_layers j)).
Proof. apply (ref_layers_ok _ _ _ (about_text x)); [apply decides_text|]. intros. eapply layers_types; eassumption. Qed.
Lemma spans_iff kl : In kl (jd_layers j) -> spans kl = true <-> exists f t, In (f, t) (fst (snd kl)) /\ about_text x t.
Proof. destruct kl as [k [fs rows]]. intros H. apply has_ref_ok; [apply decides_text|]. intros f t Hf. eapply layers_types; eassumption. Qed.
Lemma some_span : filter spans (jd_layers j) <> [] <-> some_field (about_text x) j.
Proof.
  split.
  - destruct (filter spans (jd_layers j)) as [|[k [fs rows]] r] eqn:E; [contradiction|]. intros _.
    assert (Hin : In (k, (fs, rows)) (filter spans (jd_layers j))) by (rewrite E; now left). apply filter_In in Hin as [Hin Hs]. apply spans_iff in Hs as (f & t & Hf & Ht); [|exact Hin].
    exists k, fs, rows, f, t. auto.
  - intros (k & fs & rows & f & t & Hin & Hf & Ht) E. assert (Hi : In (k, (fs, rows)) (filter spans (jd_layers j))).
    { apply filter_In. split; [exact Hin|]. apply spans_iff; [exact Hin|]. exists f, t. auto. }
    rewrite E in Hi. destruct Hi.
Qed.
Lemma refused : (some_field (about_text x) j -> jd_remove names key j x false = (j, Err DataError)) /\ (~ some_field (about_text x) j -> jd_remove names key j x false = (j, Ok tt)).
Proof.
  unfold jd_remove. rewrite span_layers. split.
  - intros H. apply some_span in H. destruct (filter spans (jd_layers j)) as [|kl r] eqn:E; [contradiction|]. rewrite <- E.
    assert (M : exists l, mapM (fun kl => ref_fields names key x (fst (snd kl))) (filter spans (jd_layers j)) = Ok l).
    { clear E H kl r. assert (H : forall kl, In kl (filter spans (jd_layers j)) -> In kl (jd_layers j)) by (intros kl Hk; now apply filter_In in Hk).
      induction (filter spans (jd_layers j)) as [|[k [fs rows]] q IH]; [exists []; reflexivity|]. cbn. assert (Hk : In (k, (fs, rows)) (jd_layers j)) by (apply H; now left).
      destruct (ref_fields_ok names key x P decides fs) as (l & -> & _); [destruct D as [_ D']; now destruct (D' _ _ _ Hk)|intros; eapply layers_types; eassumption|].
      cbn. destruct IH as (l' & ->); [intros; apply H; now right|]. cbn. eauto. }
    destruct M as [l ->]. reflexivity.
  - intros H. destruct (filter spans (jd_layers j)) as [|kl r] eqn:E; [reflexivity|]. exfalso. apply H, some_span. rewrite E. discriminate.
Qed.
Definition fields_of (kl : pystr * (dict jdtype * list (dict jv))) : list pystr := match ref_fields names key x (fst (snd kl)) with Ok l => l | Err _ => [] end.
Definition treated (kl : pystr * (dict jdtype * list (dict jv))) := if spans kl then (fst kl, drop_fields (fields_of kl) (snd kl)) else kl.
Lemma dset_mid {A} (a : dict A) k v w b : ~ In k (dkeys a) -> dset (a ++ (k, v) :: b) k w = a ++ (k, w) :: b.
Proof.
  induction a as [|[k' v'] a IH]; intros H; cbn; [now rewrite str_eqb_refl|]. rewrite str_eqb_neq by (intros ->; apply H; now left). f_equal. apply IH. intros Hi. apply H. now right.
Qed.
Lemma treated_keys l : dkeys (map treated l) = dkeys l.
Proof. unfold dkeys. rewrite map_map. apply map_ext. intros kl. unfold treated. destruct (spans kl); reflexivity. Qed.
Lemma with_with a b : with_layers (with_layers j a) b = with_layers j b.
Proof. reflexivity. Qed.
Lemma cascade_exact suf : forall pre, NoDup (dkeys (pre ++ suf)) -> incl suf (jd_layers j) ->
  cascade names key x (filter spans suf) (with_layers j (map treated pre ++ suf)) = (with_layers j (map treated pre ++ map treated suf), Ok tt).
Proof.
  induction suf as [|[k [fs rows]] suf IH]; intros pre Hn Hi; [reflexivity|].
  assert (Hk : In (k, (fs, rows)) (jd_layers j)) by (apply Hi; now left).
  assert (Hi' : incl suf (jd_layers j)) by (intros a Ha; apply Hi; now right).
  assert (E : forall l, map treated pre ++ l :: suf = (map treated pre ++ [l]) ++ suf) by (intros; rewrite <- app_assoc; reflexivity).
  assert (Hn2 : NoDup (dkeys ((pre ++ [(k, (fs, rows))]) ++ suf))) by (rewrite <- app_assoc; exact Hn).
  specialize (IH _ Hn2 Hi'). rewrite map_app in IH. cbn [map] in IH.
  cbn [filter map]. destruct (spans (k, (fs, rows))) eqn:Es.
  - cbn [cascade]. destruct (ref_fields_ok names key x P decides fs) as (l & El & _); [destruct D as [_ D']; now destruct (D' _ _ _ Hk)|intros; eapply layers_types; eassumption|].
    cbn [fst]. rewrite El. cbn [jd_layers with_layers]. rewrite dset_mid by (rewrite treated_keys; rewrite dkeys_app in Hn; exact (NoDup_mid _ _ _ Hn)). rewrite with_with, E.
    assert (Et : treated (k, (fs, rows)) = (k, drop_fields l (fs, rows))) by (unfold treated; rewrite Es; unfold fields_of; cbn [fst snd]; rewrite El; reflexivity).
    rewrite Et in IH |- *. rewrite IH, <- app_assoc. reflexivity.
  - assert (Et : treated (k, (fs, rows)) = (k, (fs, rows))) by (unfold treated; now rewrite Es). rewrite Et in IH |- *. rewrite E, IH, <- app_assoc. reflexivity.
Qed.
Lemma treated_layer k l : In (k, l) (jd_layers j) ->
  let m := snd (treated (k, l)) in
  ((exists f t, In (f, t) (fst l) /\ about_text x t) -> layer_without P l m) /\ (~ (exists f t, In (f, t) (fst l) /\ about_text x t) -> m = l).
Proof.
  destruct l as [fs rows]. intros Hin. cbn zeta. assert (Hs := spans_iff _ Hin). cbn [fst snd] in *. split.
  - intros H. apply Hs in H. unfold treated. rewrite H. cbn [fst snd]. destruct D as [_ D']. destruct (D' _ _ _ Hin) as (D1 & D2 & D3).
    destruct (ref_fields_ok names key x P decides fs D1) as (l & El & L1 & L2 & L3); [intros; eauto|]. unfold fields_of. cbn [fst snd]. rewrite El. rewrite drop_fields_exact by assumption.
    split; cbn [fst snd]; [now apply kept_without|]. clear D3 D' D1 Hin H Hs El. induction rows as [|r rows IH]; cbn; constructor; [now apply kept_without|exact IH].
  - intros H. unfold treated. destruct (spans (k, (fs, rows))); [|reflexivity]. exfalso. apply H, Hs. reflexivity.
Qed.
Lemma removed : exists k, jd_remove names key j x true = (k, Ok tt) /\ jd_props k = jd_props j /\ jd_texts k = jd_texts j /\
  Forall2 (again (fun l m => ((exists f t, In (f, t) (fst l) /\ about_text x t) -> layer_without P l m) /\ (~ (exists f t, In (f, t) (fst l) /\ about_text x t) -> m = l))) (jd_layers j) (jd_layers k).
Proof.
  unfold jd_remove. rewrite span_layers. assert (C := cascade_exact (jd_layers j) [] (proj1 D) (fun a H => H)). cbn [app map] in C.
  assert (Ej : with_layers j (jd_layers j) = j) by (destruct j; reflexivity). rewrite Ej in C.
  exists (with_layers j (map treated (jd_layers j))). split; [exact C|]. split; [reflexivity|]. split; [reflexivity|]. cbn [jd_layers with_layers].
  clear C Ej. assert (H := treated_layer). revert H. induction (jd_layers j) as [|[k l] ls IH]; intros H; cbn [map]; constructor.
  - split; [unfold treated; destruct (spans (k, l)); reflexivity|]. apply H. now left.
  - apply IH. intros. apply H. now right.
Qed.
End REMOVE.
Lemma text_refused j c : all_declared j -> (some_field (about_text c) j -> jd_remove_text j c false = (j, Err DataError)) /\ (~ some_field (about_text c) j -> jd_remove_text j c false = (j, Ok tt)).
Proof. intros H. exact (refused _ _ _ _ _ (decides_text c) H). Qed.
Lemma layer_refused j x : all_declared j -> (some_field (about_text x) j -> jd_remove_layer j x false = (j, Err DataError)) /\ (~ some_field (about_text x) j -> jd_remove_layer j x false = (j, Ok tt)).
Proof. intros H. exact (refused _ _ _ _ _ (decides_layer x) H). Qed.
Lemma text_removed j c : all_declared j -> exists k, jd_remove_text j c true = (k, Ok tt) /\ doc_without (about_text c) j k.
Proof.
  intros H. destruct (removed _ _ _ _ _ (decides_text c) H) as (k & E & E1 & E2 & F). exists k. split; [exact E|]. split; [exact E1|exact E2|].
  assert (Dec : forall l, In l (jd_layers j) -> (exists f t, In (f, t) (fst (snd l)) /\ about_text c t) \/ ~ (exists f t, In (f, t) (fst (snd l)) /\ about_text c t)).
  { intros l Hl. assert (Hs := spans_iff c j H l Hl). destruct (has_ref [TSpan] (s "context") c l); [left; now apply Hs|right; intros Hx; apply Hs in Hx; discriminate]. }
  revert F Dec. generalize (jd_layers j) (jd_layers k). induction 1 as [|[a l] [b m] p q [F0 F1] F IH]; intros Dec; constructor.
  - split; [exact F0|]. cbn in F1 |- *. destruct (Dec (a, l)) as [Hd|Hd]; [now left| |].
    + now apply F1.
    + rewrite (proj2 F1 Hd). destruct l as [fs rows]. split; cbn [fst snd].
      * apply without_none. intros f (t & Ht & HP). apply Hd. exists f, t. auto.
      * cbn in Hd. clear F0 F1 Dec. induction rows as [|r rows IHr]; [constructor|]. constructor; [|exact IHr]. apply without_none. intros f (t & Ht & HP). apply Hd. exists f, t. auto.
  - apply IH. intros. apply Dec. now right.
Qed.
Lemma without_in {A} bad (d e : dict A) : without bad d e -> forall k v, In (k, v) e <-> In (k, v) d /\ ~ bad k.
Proof.
  induction 1 as [|f y r q Hb H IH|f y r q Hb H IH]; intros k v.
  - cbn. tauto.
  - rewrite IH. split; [intros [H1 H2]; split; [now right|exact H2]|]. intros [[[= <- <-]|H1] H2]; [contradiction|auto].
  - cbn. rewrite IH. split; [intros [[= <- <-]|[H1 H2]]; auto|]. intros [[H1|H1] H2]; auto.
Qed.
Lemma without_nodup {A} bad (d e : dict A) : without bad d e -> NoDup (dkeys d) -> NoDup (dkeys e).
Proof.
  intros W. induction W as [|f y r q Hb H IH|f y r q Hb H IH]; intros Hn; inversion Hn as [|a b Hk Hd]; subst; [constructor|auto|]. cbn. constructor; [|auto].
  intros Hi. apply Hk. unfold dkeys in *. apply in_map_iff in Hi as ([k v] & Hf & Hi). cbn in Hf. subst k. apply (without_in _ _ _ H) in Hi as [Hi _]. apply in_map_iff. exists (f, v). auto.
Qed.
Lemma again_keys {A B} (R : A -> B -> Prop) (d : dict A) (e : dict B) : Forall2 (again R) d e -> dkeys e = dkeys d.
Proof. unfold dkeys. induction 1 as [|p q d e [E _] H IH]; [reflexivity|]. cbn. now rewrite E, IH. Qed.
Lemma Forall2_in_r {A B} (R : A -> B -> Prop) l m : Forall2 R l m -> forall y, In y m -> exists z, In z l /\ R z y.
Proof. induction 1 as [|a b l m H0 H IH]; intros y; [intros []|]. intros [<-|Hy]; [exists a; split; [now left|exact H0]|]. destruct (IH _ Hy) as (z & Hz & Hr). exists z. split; [now right|exact Hr]. Qed.
Lemma without_declared P j k : all_declared j -> doc_without P j k -> all_declared k /\ ~ some_field P k.
Proof.
  intros [D0 D] [_ _ W]. split; [split|].
  - rewrite (again_keys _ _ _ W). exact D0.
  - intros a fs rows Hin. destruct (Forall2_in_r _ _ _ W _ Hin) as ([b [gs qs]] & Hb & E & W1 & W2). cbn in E, W1, W2. subst a. destruct (D _ _ _ Hb) as (D1 & D2 & D3). split; [|split].
    + eapply without_nodup; eassumption.
    + intros f t Hf. apply (without_in _ _ _ W1) in Hf as [Hf _]. eauto.
    + apply Forall_forall. intros r Hr. destruct (Forall2_in_r _ _ _ W2 _ Hr) as (q & Hq & Wq). rewrite Forall_forall in D3. eapply without_nodup; [exact Wq|auto].
  - intros (a & fs & rows & f & t & Hin & Hf & HP). destruct (Forall2_in_r _ _ _ W _ Hin) as ([b [gs qs]] & Hb & E & W1 & W2). cbn in W1. apply (without_in _ _ _ W1) in Hf as [Hf Hno].
    apply Hno. exists t. auto.
Qed.
Lemma text_removed_twice j c k : all_declared j -> jd_remove_text j c true = (k, Ok tt) -> jd_remove_text k c false = (k, Ok tt).
Proof.
  intros H E. destruct (text_removed j c H) as (k' & E' & W). rewrite E in E'. injection E' as <-. destruct (without_declared _ _ _ H W) as [H1 H2]. now apply (proj2 (text_refused k c H1)).
Qed.
Lemma layer_removed j x : all_declared j -> exists k, jd_remove_layer j x true = (k, Ok tt) /\ jd_props k = jd_props j /\ jd_texts k = jd_texts j /\
  Forall2 (again (fun l m => ((exists f t, In (f, t) (fst l) /\ about_text x t) -> layer_without (about_layer x) l m) /\ (~ (exists f t, In (f, t) (fst l) /\ about_text x t) -> m = l))) (jd_layers j) (jd_layers k).
Proof. intros H. exact (removed _ _ _ _ _ (decides_layer x) H). Qed.
Lemma layer_ignored j x b : all_declared j -> ~ some_field (about_text x) j -> jd_remove_layer j x b = (j, Ok tt).
Proof.
  intros H Hs. destruct b; [|now apply (proj2 (layer_refused j x H))]. destruct (layer_removed j x H) as (k & E & E1 & E2 & F). rewrite E. f_equal.
  destruct j as [pj tj lj], k as [pk tk lk]. cbn in *. subst. f_equal. assert (Hs' : forall l, In l lj -> ~ (exists f t, In (f, t) (fst (snd l)) /\ about_text x t)).
  { intros [a [fs rows]] Hl (f & t & Hf & Ht). apply Hs. exists a, fs, rows, f, t. auto. }
  clear Hs H E. induction F as [|[a l] [b m] p q [F0 F1] F IH]; [reflexivity|]. cbn in F0, F1. subst b. rewrite (proj2 F1) by (apply (Hs' (a, l)); now left). f_equal. apply IH. intros. apply Hs'. now right.
Qed.
