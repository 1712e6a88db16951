(** Documents that come about by the operations of the Java port. *)
From Verif Require Import PyBase PyBaseFacts Model_Text Model_Heap Model_Layer Model_Types Model_JUnits Model_JCodec Model_JEncode Model_JEdit
  Spec_Msgpack Spec_JUnits Spec_JCodec Spec_JEncode Spec_JEdit Proof_JEdit Proof_JEncode3 Proof_JEncode4.
Local Open Scope Z_scope.

Record layer_inv (j : jdoc) (fs : dict jdtype) (rows : list (dict jv)) : Prop := {
  li_fields : NoDup (dkeys fs);
  li_types : forall f t, In (f, t) fs -> made_type t;
  li_rows : forall row, In row rows -> NoDup (dkeys row) /\ incl (dkeys row) (dkeys fs);
  li_values : forall row f t v, In row rows -> In (f, t) fs -> dget row f = Some v -> describes t v /\ jvalue_ok j v }.
Record inv (j : jdoc) : Prop := {
  in_props : NoDup (dkeys (jd_props j)) /\ forall k v, In (k, v) (jd_props j) -> jscalar v;
  in_texts : NoDup (dkeys (jd_texts j)) /\ forall c u, In (c, u) (jd_texts j) -> exists x, holds_text j c x;
  in_layers : NoDup (dkeys (jd_layers j));
  in_each : forall k fs rows, In (k, (fs, rows)) (jd_layers j) -> layer_inv j fs rows }.

Definition extends (j k : jdoc) : Prop := (forall c u, dget (jd_texts j) c = Some u -> dget (jd_texts k) c = Some u) /\ (forall x p, has_node j x p -> has_node k x p).
Lemma holds_mono j k c x : extends j k -> holds_text j c x -> holds_text k c x.
Proof. intros [E _] [H1 H2]. split; auto. Qed.
Lemma value_mono j k v : extends j k -> jvalue_ok j v -> jvalue_ok k v.
Proof.
  intros E H. destruct H as [| | | | | | |c x p q H1 H2 H3| x p H|x ps H|x p q H1 H2]; try (constructor; assumption).
  - constructor; [|assumption|assumption]. eapply holds_mono; eassumption.
  - constructor. now apply E.
  - constructor. eapply Forall_impl; [|exact H]. intros p. apply E.
  - constructor; [assumption|now apply E].
Qed.
Lemma layer_mono j k fs rows : extends j k -> layer_inv j fs rows -> layer_inv k fs rows.
Proof. intros E [H1 H2 H3 H4]. split; try assumption. intros row f t v A B C. destruct (H4 _ _ _ _ A B C). split; [assumption|]. eapply value_mono; eassumption. Qed.
Lemma In_dset {A} (d : dict A) k v k' v' : In (k', v') (dset d k v) -> (k' = k /\ v' = v) \/ In (k', v') d.
Proof.
  induction d as [|[a b] d IH]; cbn; [intros [[= <- <-]|[]]; auto|]. destruct (str_eqb k a) eqn:E.
  - apply str_eqb_eq in E. subst a. intros [[= <- <-]|H]; auto.
  - intros [H|H]; [auto|]. destruct (IH H); auto.
Qed.

(** a layer takes the place of another *)
Lemma extends_layer j x fs rows : (forall gs qs, dget (jd_layers j) x = Some (gs, qs) -> (length qs <= length rows)%nat) -> extends j (with_layers j (dset (jd_layers j) x (fs, rows))).
Proof.
  intros H. split; [auto|]. intros y p (gs & qs & E & L). unfold has_node. cbn [jd_layers with_layers]. rewrite dget_dset. destruct (str_eqb y x) eqn:Ey.
  - apply str_eqb_eq in Ey. subst y. exists fs, rows. split; [reflexivity|]. specialize (H _ _ E). lia.
  - exists gs, qs. auto.
Qed.
Lemma inv_layer j x fs rows : inv j -> (forall gs qs, dget (jd_layers j) x = Some (gs, qs) -> (length qs <= length rows)%nat) ->
  layer_inv j fs rows -> inv (with_layers j (dset (jd_layers j) x (fs, rows))).
Proof.
  intros [I1 I2 I3 I4] HL HI. pose proof (extends_layer j x fs rows HL) as E. split.
  - exact I1.
  - destruct I2 as [I2 I2']. split; [exact I2|]. intros c u Hc. destruct (I2' _ _ Hc) as [t Ht]. exists t. eapply holds_mono; eassumption.
  - cbn. now apply NoDup_dset.
  - cbn [jd_layers with_layers]. intros k gs qs Hin. apply In_dset in Hin as [[-> [= -> ->]]|Hin]; [|apply I4 in Hin]; eapply layer_mono; eassumption.
Qed.

(** fields *)
Lemma schema_build_ok l : forall acc r, schema_build acc l = Ok r -> NoDup (dkeys acc) -> r = acc ++ l /\ NoDup (dkeys r).
Proof.
  induction l as [|[f t] l IH]; intros acc r; cbn; [intros [= <-]; rewrite app_nil_r; auto|]. destruct (dmem acc f) eqn:E; [discriminate|]. intros H Hn. apply IH in H.
  - rewrite <- app_assoc in H. exact H.
  - rewrite dkeys_app. apply NoDup_snoc; [exact Hn|]. cbn [fst]. intros Hi. apply dmem_In in Hi. congruence.
Qed.
Lemma field_added j fs rows f t : layer_inv j fs rows -> dmem fs f = false -> made_type t -> layer_inv j (dset fs f t) rows.
Proof.
  intros [H1 H2 H3 H4] E Ht. assert (Ef : dget fs f = None). { unfold dmem in E. destruct (dget fs f); [discriminate|reflexivity]. }
  rewrite dset_absent by exact Ef. assert (Hf : ~ In f (dkeys fs)) by now apply dget_None. split.
  - rewrite dkeys_app. now apply NoDup_snoc.
  - intros g u Hin. apply in_app_or in Hin as [Hin|[[= <- <-]|[]]]; eauto.
  - intros row Hr. destruct (H3 _ Hr) as [A B]. split; [exact A|]. intros y Hy. rewrite dkeys_app. apply in_or_app. left. auto.
  - intros row g u v Hr Hin Hv. apply in_app_or in Hin as [Hin|[[= <- <-]|[]]]; [eauto|]. exfalso. apply Hf. destruct (H3 _ Hr) as [_ B]. apply B.
    apply dget_In in Hv. unfold dkeys. apply in_map_iff. exists (f, v). auto.
Qed.
Lemma In_ddel {A} (d : dict A) k a b : In (a, b) (ddel d k) -> In (a, b) d.
Proof. induction d as [|[x y] d IH]; cbn; [auto|]. destruct (str_eqb k x); [auto|]. intros [H|H]; auto. Qed.
Lemma field_dropped j f l : layer_inv j (fst l) (snd l) -> layer_inv j (fst (drop_field f l)) (snd (drop_field f l)) /\ length (snd (drop_field f l)) = length (snd l).
Proof.
  destruct l as [fs rows]. unfold drop_field. cbn [fst snd]. intros H. destruct (dmem fs f) eqn:Em; [|auto]. cbn [fst snd]. rewrite map_length. split; [|reflexivity].
  destruct H as [H1 H2 H3 H4]. unfold node_remove. split.
  - now apply NoDup_ddel.
  - intros g u Hin. apply In_ddel in Hin. eauto.
  - intros row Hr. apply in_map_iff in Hr as (q & <- & Hq). destruct (H3 _ Hq) as [A B]. split; [now apply NoDup_ddel|]. intros y Hy.
    assert (Hyf : y <> f). { intros ->. assert (N0 := dget_ddel_same q f A). apply dget_None in N0. contradiction. }
    apply dkeys_ddel_incl in Hy. apply B in Hy. apply dmem_In. apply dmem_In in Hy. unfold dmem in *. now rewrite dget_ddel_other.
  - intros row g u v Hr Hin Hv. apply in_map_iff in Hr as (q & <- & Hq). assert (Hg : g <> f).
    { intros ->. rewrite dget_ddel_same in Hv by apply (H3 _ Hq). discriminate. }
    rewrite dget_ddel_other in Hv by exact Hg. apply In_ddel in Hin. eauto.
Qed.
Lemma fields_dropped j fields : forall l, layer_inv j (fst l) (snd l) -> layer_inv j (fst (drop_fields fields l)) (snd (drop_fields fields l)) /\ length (snd (drop_fields fields l)) = length (snd l).
Proof.
  induction fields as [|f fields IH]; intros l H; [auto|]. cbn. destruct (field_dropped j f l H) as [A B]. destruct (IH _ A) as [C E]. unfold drop_fields in *. split; [exact C|]. rewrite E. exact B.
Qed.
Lemma inv_replaced j x l m : inv j -> dget (jd_layers j) x = Some l -> layer_inv j (fst m) (snd m) -> (length (snd l) <= length (snd m))%nat -> inv (with_layers j (dset (jd_layers j) x m)).
Proof. destruct m as [fs rows]. intros H E L Hl. apply inv_layer; [exact H| |exact L]. intros gs qs E'. rewrite E in E'. injection E' as ->. exact Hl. Qed.
Lemma inv_get j x l : inv j -> dget (jd_layers j) x = Some l -> layer_inv j (fst l) (snd l).
Proof. intros [_ _ _ I4] E. apply dget_In in E. destruct l as [fs rows]. cbn. eauto. Qed.

(** removal *)
Lemma ref_layers_sub names key x ls : forall q, ref_layers names key x ls = Ok q -> incl q ls /\ (NoDup (dkeys ls) -> NoDup (dkeys q)).
Proof.
  induction ls as [|kl ls IH]; intros q; cbn; [intros [= <-]; split; [intros a []|auto]|]. destruct (any_refers names key x (fst (snd kl))) as [b|]; cbn; [|discriminate].
  destruct (ref_layers names key x ls) as [p|]; cbn; [|discriminate]. intros [= <-]. destruct (IH _ eq_refl) as [A B]. destruct b.
  - split; [intros a [<-|Ha]; [now left|right; auto]|]. intros Hn. cbn in *. inversion Hn as [|u v Hk Hd]; subst. constructor; [|auto]. intros Hi. apply Hk. unfold dkeys in *. apply in_map_iff in Hi as (z & Hz & Hi). apply in_map_iff. exists z. auto.
  - split; [intros a Ha; right; auto|]. intros Hn. inversion Hn; subst. auto.
Qed.
Lemma cascade_inv names key x ls : forall j, inv j -> NoDup (dkeys ls) -> (forall k l, In (k, l) ls -> dget (jd_layers j) k = Some l) -> inv (fst (cascade names key x ls j)).
Proof.
  induction ls as [|[k l] ls IH]; intros j I Hn Hd; cbn; [exact I|]. destruct (ref_fields names key x (fst l)) as [fields|]; [|exact I].
  inversion Hn as [|a b Hk Hn']; subst. assert (E : dget (jd_layers j) k = Some l) by (apply Hd; now left). apply IH; [|exact Hn'|].
  - destruct (fields_dropped j fields l (inv_get _ _ _ I E)) as [A B]. eapply inv_replaced; [exact I|exact E|exact A|]. rewrite B. lia.
  - intros k' l' Hin. cbn. rewrite dget_dset_other; [apply Hd; now right|]. intros ->. apply Hk. unfold dkeys. apply in_map_iff. exists (k, l'). auto.
Qed.
Lemma remove_inv names key j x b : inv j -> inv (fst (jd_remove names key j x b)).
Proof.
  intros I. unfold jd_remove. destruct (ref_layers [TSpan] (s "context") x (jd_layers j)) as [ls|] eqn:E; [|exact I]. destruct (ref_layers_sub _ _ _ _ _ E) as [A B]. destruct b.
  - apply cascade_inv; [exact I|apply B; apply I|]. intros k l Hin. apply dget_nodup; [apply I|auto].
  - destruct ls; [exact I|]. destruct (mapM _ _); exact I.
Qed.

(** every step *)
Lemma inv_new : inv (mkJDoc [] [] []).
Proof. split; cbn; try (split; [constructor|intros ? ? []]); [constructor|intros ? ? ? []]. Qed.
Lemma edit_inv j e : inv j -> edit_ok j e -> inv (fst (run_edit e j)).
Proof.
  intros I H. destruct H as [k v Hv|c x Hx|x l Hx Hl|x f t Ht|x f|x l Hl|c b|x b]; cbn [run_edit].
  - destruct I as [[P1 P2] I2 I3 I4]. unfold jd_set_prop. cbn [fst]. assert (E : extends j (mkJDoc (dset (jd_props j) k v) (jd_texts j) (jd_layers j))) by (split; auto). split; cbn.
    + split; [now apply NoDup_dset|]. intros a b Hin. apply In_dset in Hin as [[-> ->]|Hin]; eauto.
    + exact I2.
    + exact I3.
    + intros a fs rows Hin. eapply layer_mono; [exact E|eauto].
  - unfold jd_add_text. destruct (dmem (jd_texts j) c) eqn:Em; cbn [fst]; [exact I|]. destruct I as [I1 [T1 T2] I3 I4].
    assert (E : extends j (mkJDoc (jd_props j) (dset (jd_texts j) c (utf16 x)) (jd_layers j))).
    { split; [|auto]. cbn. intros d u Hd. rewrite dget_dset. destruct (str_eqb d c) eqn:Ed; [|exact Hd]. apply str_eqb_eq in Ed. subst d. unfold dmem in Em. rewrite Hd in Em. discriminate. }
    split; cbn [jd_props jd_texts jd_layers].
    + exact I1.
    + split; [now apply NoDup_dset|]. intros d u Hin. apply In_dset in Hin as [[-> ->]|Hin].
      * exists x. split; [cbn; apply dget_dset_same|exact Hx].
      * destruct (T2 _ _ Hin) as [y Hy]. exists y. eapply holds_mono; eassumption.
    + exact I3.
    + intros a fs rows Hin. eapply layer_mono; [exact E|eauto].
  - unfold jd_add_layer. destruct (schema_build [] l) as [fs|] eqn:E; cbn [fst]; [|exact I]. destruct (schema_build_ok _ _ _ E) as [E1 E2]; [constructor|]. cbn in E1. subst fs.
    apply inv_layer; [exact I| |].
    + intros gs qs Hd. exfalso. apply Hx. apply dget_In in Hd. unfold dkeys. apply in_map_iff. eexists (x, _). split; [reflexivity|exact Hd].
    + split; [exact E2| |intros row []|intros row f t v []]. intros f t Hin. rewrite Forall_forall in Hl. exact (Hl _ Hin).
  - unfold jd_add_field. destruct (dget (jd_layers j) x) as [[fs rows]|] eqn:E; cbn [fst]; [|exact I]. destruct (dmem fs f) eqn:Em; cbn [fst]; [exact I|].
    eapply inv_replaced; [exact I|exact E| |cbn; lia]. cbn [fst snd]. apply field_added; [exact (inv_get _ _ _ I E)|exact Em|exact Ht].
  - unfold jd_remove_field. destruct (dget (jd_layers j) x) as [l|] eqn:E; cbn [fst]; [|exact I]. destruct (field_dropped j f l (inv_get _ _ _ I E)) as [A B].
    eapply inv_replaced; [exact I|exact E|exact A|]. rewrite B. lia.
  - unfold jd_add_node. destruct (dget (jd_layers j) x) as [[fs rows]|] eqn:E; cbn [fst]; [|exact I]. destruct (node_build fs l) as [row|] eqn:Eb; cbn [fst]; [|exact I].
    apply build_exact in Eb as (-> & Hn & Hd). eapply inv_replaced; [exact I|exact E| |cbn; rewrite app_length; cbn; lia]. cbn [fst snd].
    destruct (inv_get _ _ _ I E) as [H1 H2 H3 H4]. cbn [fst snd] in *. split; [exact H1|exact H2| |].
    + intros row Hr. apply in_app_or in Hr as [Hr|[<-|[]]]; [auto|]. split; [exact Hn|]. intros f Hf. unfold dkeys in Hf. apply in_map_iff in Hf as ([g v] & <- & Hin). rewrite Forall_forall in Hd.
      destruct (Hd _ Hin) as (t & Ht & _). cbn in *. apply dget_In in Ht. apply in_map_iff. exists (g, t). auto.
    + intros row f t v Hr Hf Hv. apply in_app_or in Hr as [Hr|[<-|[]]]; [eauto|]. apply dget_In in Hv. rewrite Forall_forall in Hd, Hl. split; [|exact (Hl _ Hv)].
      destruct (Hd _ Hv) as (u & Hu & Hdes). cbn in Hu, Hdes. rewrite (dget_nodup fs f t H1 Hf) in Hu. now injection Hu as ->.
  - now apply remove_inv.
  - now apply remove_inv.
Qed.
Lemma made_inv j : made j -> inv j.
Proof. induction 1 as [|j e H IH He]; [exact inv_new|now apply edit_inv]. Qed.
Lemma made_declared j : made j -> all_declared j.
Proof.
  intros H. apply made_inv in H as [_ _ I3 I4]. split; [exact I3|]. intros k fs rows Hin. destruct (I4 _ _ _ Hin) as [H1 H2 H3 _]. split; [exact H1|]. split; [exact H2|].
  apply Forall_forall. intros row Hr. apply (H3 _ Hr).
Qed.

(** ** what has been made can be written and read *)
Lemma typed_of j t v : describes t v -> jvalue_ok j v -> jtyped j t v.
Proof.
  intros D V. destruct D; inversion V; subst.
  - now apply jy_int.
  - now apply jy_long.
  - now apply jy_double.
  - now apply jy_bool.
  - now apply jy_str.
  - now apply jy_bin.
  - apply jy_ext; [reflexivity|reflexivity|assumption].
  - eapply jy_span; [reflexivity|reflexivity|eassumption|assumption|assumption].
  - apply jy_node; [reflexivity|reflexivity|assumption].
  - apply jy_nodes; [reflexivity|reflexivity|assumption].
  - apply jy_nodespan; [reflexivity|reflexivity|assumption|assumption].
Qed.
Lemma mapM_each {A B} (f : A -> res B) l r : mapM f l = Ok r -> forall x, In x l -> exists y, f x = Ok y.
Proof.
  revert r. induction l as [|a l IH]; intros r; cbn; [intros _ x []|]. destruct (f a) as [b|] eqn:E; cbn; [|discriminate]. destruct (mapM f l) as [q|]; cbn; [|discriminate]. intros _ x [<-|Hx]; eauto.
Qed.
Lemma validated j : jvalidate j = Ok tt -> forall k fs rows f t, In (k, (fs, rows)) (jd_layers j) -> In (f, t) fs -> jvalid_field j t = Ok tt.
Proof.
  unfold jvalidate. match goal with |- rbind ?m _ = _ -> _ => destruct m as [r|] eqn:E end; cbn; [|discriminate]. intros _ k fs rows f t Hin Hf.
  destruct (mapM_each _ _ _ E _ Hin) as [y Hy]. cbn in Hy. destruct (mapM_each _ _ _ Hy _ Hf) as [[] Hz]. exact Hz.
Qed.
Lemma made_type_ok j t : made_type t -> jvalid_field j t = Ok tt -> (ty_name t = JT TNodeRefSpan -> forall x, argument t (s "layer") x -> In x (dkeys (jd_layers j))) -> jtype_ok j t.
Proof.
  assert (A1 : forall k x, NoDup (dkeys [(k, JStr x)]) /\ forall a v, In (a, v) [(k, JStr x)] -> jscalar v).
  { intros k x. split; [repeat constructor; simpl; tauto|]. intros a v [[= <- <-]|[]]. constructor. }
  intros D V Hs. destruct D as [t Ht|c|y|t x Ht].
  - split; cbn [ty_name ty_args].
    + exists t. split; [reflexivity|]. intros ->. simpl in Ht. intuition discriminate.
    + intros H. exfalso. simpl in Ht, H. repeat (destruct Ht as [<-|Ht]; [intuition discriminate|]). exact Ht.
    + intros [= ->]. exfalso. simpl in Ht. intuition discriminate.
    + intros [= ->]. exfalso. simpl in Ht. intuition discriminate.
    + split; [constructor|intros ? ? []].
  - split; cbn [ty_name ty_args]; [exists TSpan; split; [reflexivity|discriminate]|intros H; exfalso; simpl in H; intuition discriminate| |discriminate|apply A1].
    intros _. exists c. split; [reflexivity|]. change (jvalid_field j (mkJT (JT TSpan) [(s "context", JStr c)])) with (if dmem (jd_texts j) c then Ok tt else @Err unit DataError) in V.
    destruct (dmem (jd_texts j) c) eqn:E; [|discriminate]. now apply dmem_In.
  - split; cbn [ty_name ty_args]; [exists TExt; split; [reflexivity|discriminate]|intros H; exfalso; simpl in H; intuition discriminate|discriminate| |apply A1].
    intros _. exists y. reflexivity.
  - split; cbn [ty_name ty_args].
    + exists t. split; [reflexivity|]. intros ->. simpl in Ht. intuition discriminate.
    + intros _. exists x. split; [reflexivity|]. destruct Ht as [<-|[<-|[<-|[]]]].
      * change (jvalid_field j (mkJT (JT TNodeRef) [(s "layer", JStr x)])) with (if dmem (jd_layers j) x then Ok tt else @Err unit DataError) in V. destruct (dmem (jd_layers j) x) eqn:E; [|discriminate]. now apply dmem_In.
      * change (jvalid_field j (mkJT (JT TNodeRefMany) [(s "layer", JStr x)])) with (if dmem (jd_layers j) x then Ok tt else @Err unit DataError) in V. destruct (dmem (jd_layers j) x) eqn:E; [|discriminate]. now apply dmem_In.
      * apply Hs; reflexivity.
    + intros [= ->]. exfalso. simpl in Ht. intuition discriminate.
    + intros [= ->]. exfalso. simpl in Ht. intuition discriminate.
    + apply A1.
Qed.
Lemma made_ok j : made j -> jvalidate j = Ok tt -> spans_named j -> few_nodes j -> jdoc_ok j.
Proof.
  intros M V S0 F0. destruct (made_inv _ M) as [I1 I2 I3 I4]. split.
  - exact I1.
  - exact I2.
  - exact I3.
  - intros k fs rows Hin. destruct (I4 _ _ _ Hin) as [H1 H2 H3 H4]. split; [exact H1|]. split; [eapply F0; eassumption|]. intros f t Hf. apply made_type_ok; [eauto|eapply validated; eassumption|].
    intros En x Hx. eapply S0; eassumption.
  - intros k fs rows row f t v Hin Hr Hf Hv. destruct (I4 _ _ _ Hin) as [H1 H2 H3 H4]. destruct (H4 _ _ _ _ Hr Hf Hv). now apply typed_of.
Qed.
Lemma encode_validates j b : java_encode j = Ok b -> jvalidate j = Ok tt.
Proof. unfold java_encode. destruct (jvalidate j) as [[]|]; cbn; [reflexivity|discriminate]. Qed.
Lemma made_again j b rest : made j -> spans_named j -> few_nodes j -> no_bytes j -> java_encode j = Ok b -> exists k, java_decode (b ++ rest) = Ok k /\ doc_again j k.
Proof.
  intros M S0 F0 B0 E. apply java_again; [|  |exact E].
  - apply made_ok; auto. eapply encode_validates; eassumption.
  - intros k fs rows row f t v Hin Hr Hf Hv. destruct (made_inv _ M) as [_ _ _ I4]. destruct (I4 _ _ _ Hin) as [_ _ _ H4]. destruct (H4 _ _ _ _ Hr Hf Hv) as [D _].
    destruct D as [| | | | |x| | | |x ps Hp|]; try reflexivity.
    + exfalso. exact (B0 _ _ _ _ _ _ Hin Hr Hv _ eq_refl).
    + destruct ps; [contradiction|reflexivity].
Qed.
