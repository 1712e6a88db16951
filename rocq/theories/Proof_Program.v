(** Proofs about programs on one document. *)
From Verif Require Import PyBase PyBaseFacts Model_Text Model_Heap Model_Layer Model_Types Model_Msgpack Model_Document Model_Codec
  Spec_Layer Spec_History Spec_Types Spec_Msgpack Spec_Document Spec_Codec Spec_Program
  Proof_Heap Proof_Layer Proof_Layer2 Proof_Layer3 Proof_History Proof_Layer4 Proof_Types Proof_Document.
Local Open Scope Z_scope.

(** ** dictionaries all of whose values satisfy P *)
Definition dall (P : value -> Prop) (d : dict value) : Prop := NoDup (dkeys d) /\ forall k v, In (k, v) d -> P v.
Lemma dset_In {A} (d : dict A) k v k' v' : In (k', v') (dset d k v) -> In (k', v') d \/ (k' = k /\ v' = v).
Proof.
  induction d as [|[k0 v0] d IH]; simpl.
  - intros [[= <- <-]|[]]. auto.
  - destruct (str_eqb k k0) eqn:E.
    + apply str_eqb_eq in E. subst k0. intros [[= <- <-]|H]; auto.
    + intros [[= <- <-]|H]; [auto|]. destruct (IH H); auto.
Qed.
Lemma ddel_In {A} (d : dict A) k x : In x (ddel d k) -> In x d.
Proof. induction d as [|[k0 v0] d IH]; simpl; [auto|]. destruct (str_eqb k k0); simpl; tauto. Qed.
Lemma dall_dset P d k v : dall P d -> P v -> dall P (dset d k v).
Proof. intros [H1 H2] Hv. split; [apply NoDup_dset; assumption|]. intros k' v' H. apply dset_In in H. destruct H as [H|[_ ->]]; eauto. Qed.
Lemma dall_ddel P d k : dall P d -> dall P (ddel d k).
Proof. intros [H1 H2]. split; [apply NoDup_ddel; assumption|]. intros k' v' H. apply ddel_In in H. eauto. Qed.
Lemma dall_dupdate P e : forall d, dall P d -> (forall k v, In (k, v) e -> P v) -> dall P (dupdate d e).
Proof.
  unfold dupdate. induction e as [|[k v] e IH]; intros d H He; simpl; [assumption|]. apply IH.
  - apply dall_dset; [assumption|]. apply (He k). left. reflexivity.
  - intros k' v' H'. apply (He k'). right. assumption.
Qed.
Lemma dall_fill P ds : forall f, dall P f -> (forall k v, In (k, v) ds -> P v) -> dall P (fill_missing f ds).
Proof.
  induction ds as [|[k v] ds IH]; intros f H He; simpl; [assumption|]. apply IH.
  - destruct (dmem f k); [assumption|]. apply dall_dset; [assumption|]. apply (He k). left. reflexivity.
  - intros k' v' H'. apply (He k'). right. assumption.
Qed.
Lemma dall_mono (P Q : value -> Prop) d : (forall v, P v -> Q v) -> dall P d -> dall Q d.
Proof. intros H [H1 H2]. split; [assumption|]. intros k v Hv. eauto. Qed.
Lemma defaults_In fs k v : In (k, v) (defaults_of fs) -> exists t, In (k, t) fs /\ In (s "default", v) (dt_opts t).
Proof.
  induction fs as [|[f t] fs IH]; simpl; [intros []|]. unfold dt_default at 1.
  destruct (dget (dt_opts t) (s "default")) as [w|] eqn:E.
  - intros H. assert (H' : (k, v) = (f, w) \/ In (k, v) (defaults_of fs)) by (destruct w; simpl in H; intuition congruence).
    destruct H' as [[= -> ->]|H'].
    + exists t. split; [auto|]. apply dget_In. assumption.
    + destruct (IH H') as (u & U1 & U2). eauto.
  - intros H. destruct (IH H) as (u & U1 & U2). eauto.
Qed.
Lemma default_In t v : dt_default t = Some v -> In (s "default", v) (dt_opts t).
Proof.
  unfold dt_default. destruct (dget (dt_opts t) (s "default")) as [w|] eqn:E; [|discriminate].
  intros H. apply dget_In. destruct w; congruence.
Qed.

(** ** what one call leaves alone *)
Section Step.
Context {K : Type} (leb : K -> K -> bool) (P : value -> Prop) (Q : dtype -> Prop).
Hypothesis PQ : forall t k v, Q t -> In (k, v) (dt_opts t) -> P v.

Definition vals (h : heap) : Prop := forall n, dall P (n_fieldsof h n).
Definition typs (h : heap) : Prop := forall l f t, In (f, t) (l_fields (h_layer h l)) -> Q t.
Record keeps (h h' : heap) : Prop := {
  k_lnext : h_lnext h' = h_lnext h;
  k_name : forall l, l_nameof h' l = l_nameof h l;
  k_vals : vals h';
  k_typs : typs h' }.

Lemma frame_name l h h' k : frame l h h' -> l_nameof h' k = l_nameof h k.
Proof.
  intros F. destruct (Nat.eq_dec k l) as [->|Hne]; [apply F|]. unfold l_nameof. rewrite (fr_layer _ _ _ F) by assumption. reflexivity.
Qed.
Lemma frame_fields l h h' k : frame l h h' -> l_fields (h_layer h' k) = l_fields (h_layer h k).
Proof.
  intros F. destruct (Nat.eq_dec k l) as [->|Hne]; [apply F|]. rewrite (fr_layer _ _ _ F) by assumption. reflexivity.
Qed.
Lemma keeps_frame l h h' : frame l h h' -> typs h -> vals h' -> keeps h h'.
Proof.
  intros F T V. split; [apply F|intros k; apply (frame_name l); assumption|assumption|].
  intros k f t. rewrite (frame_fields l h h' k F). apply T.
Qed.
Lemma vals_same h h' : (forall n, n_fieldsof h' n = n_fieldsof h n) -> vals h -> vals h'.
Proof. intros H V n. rewrite H. apply V. Qed.
Lemma keeps_shrink l h h' : shrink l h h' -> vals h -> typs h -> keeps h h'.
Proof. intros S V T. apply (keeps_frame l); [apply S|assumption|]. apply (vals_same h); [apply S|assumption]. Qed.
Lemma keeps_refl h : vals h -> typs h -> keeps h h.
Proof. intros V T. split; auto. Qed.

Lemma typs_defaults h l k v : wf h -> typs h -> In (k, v) (l_defaults (h_layer h l)) -> P v.
Proof.
  intros W T H. rewrite (wf_defaults h W) in H. apply defaults_In in H. destruct H as (t & H1 & H2). eapply PQ; [|eassumption]. eapply T; eauto.
Qed.
Lemma add_many_loop_keeps l ns : forall h, frame l h (fst (add_many_loop h l ns)) /\
  (forall n, n_fieldsof (fst (add_many_loop h l ns)) n = n_fieldsof h n).
Proof.
  induction ns as [|[n|] ns IH]; intros h; simpl; [split; [apply frame_refl|auto]| |split; [apply frame_refl|auto]].
  destruct (n_collof h n); [split; [apply frame_refl|auto]|].
  destruct (IH (append_node (bind_node h l n) l n)) as [F E]. split.
  - eapply frame_trans; [apply frame_append|exact F].
  - intros m. rewrite E. destruct (append_acc h l n) as (_ & _ & _ & _ & _ & Hf). cbn zeta in *. apply Hf.
Qed.
Lemma fill_nodes_keeps ds ns : (forall k v, In (k, v) ds -> P v) -> forall h, vals h ->
  vals (fst (fill_nodes h ds ns)) /\ (forall l, frame l h (fst (fill_nodes h ds ns))).
Proof.
  intros Hd. induction ns as [|[n|] ns IH]; intros h V; simpl; [split; [assumption|intros; apply frame_refl]| |split; [assumption|intros; apply frame_refl]].
  destruct (IH (set_fields h n (fill_missing (n_fieldsof h n) ds))) as [V' F'].
  - intros m. hs. destruct (Nat.eqb m n); [apply dall_fill; auto|apply V].
  - split; [assumption|]. intros l. eapply frame_trans; [|apply F']. split; intros; hs; reflexivity.
Qed.
Lemma add_many_keeps h l one ns df fv : wf h -> vals h -> typs h -> 
  vals (fst (layer_add_many h l one ns df fv)).
Proof.
  intros W V T. unfold layer_add_many. destruct (add_many_loop_keeps l ns h) as [F E].
  destruct (add_many_loop h l ns) as [h1 [u|e]]; simpl in F, E; [|simpl; apply (vals_same h); assumption].
  assert (V1 : vals h1) by (apply (vals_same h); assumption).
  destruct (if fv then _ else _); [|exact V1]. destruct (df && _); [|exact V1].
  apply fill_nodes_keeps; [|assumption]. intros k v. rewrite (fr_defaults _ _ _ F). apply (typs_defaults h l k v W T).
Qed.

Lemma exec_keeps h o : wf h -> op_ok h o -> (forall name fs, o <> OLayer name fs) -> vals h -> typs h ->
  (forall k v, In (k, v) (given o) -> P v) -> (forall k t, In (k, t) (given_types o) -> Q t) -> keeps h (fst (exec leb h o)).
Proof.
  intros W Hop NL V T GV GT. destruct o; cbn [exec op_ok given given_types] in *.
  - (* ONode *) destruct (new_node h f) as [h1 n] eqn:En. simpl. destruct (new_node_spec h f h1 n W En) as (W1 & E1 & E2 & E3 & E4 & E5 & E6 & E7).
    split; [assumption|intros l; unfold l_nameof; rewrite E4; reflexivity| |intros l g t; rewrite E4; apply T].
    intros m. destruct (Nat.eq_dec m n) as [->|Hne]; [rewrite E5; split; assumption|]. unfold n_fieldsof. rewrite E7 by assumption. apply V.
  - exfalso. eapply NL; reflexivity.
  - (* OAdd *) destruct Hop as [Hl Hnd]. destruct (layer_add_kw h l kw) as [h1 r] eqn:Ea. simpl.
    pose proof (add_kw_spec h l kw h1 r W Hl Ea) as S. destruct r as [n|e]; [|subst h1; apply keeps_refl; assumption].
    destruct S as (W1 & -> & Ec & El & Em & Ef & _ & Es & _ & Enm & N1 & N2 & _). split; [assumption| | |].
    + intros k. destruct (Nat.eq_dec k l) as [->|Hne]; [assumption|]. unfold l_nameof. rewrite El by assumption. reflexivity.
    + intros m. destruct (Nat.eq_dec m (h_nnext h)) as [->|Hne]; [|unfold n_fieldsof; rewrite Em by assumption; apply V].
      rewrite Ef. apply dall_dupdate; [|assumption]. split.
      * rewrite (wf_defaults h W). apply NoDup_defaults, wf_schema. assumption.
      * intros k v. apply (typs_defaults h l k v W T).
    + intros k f t. destruct (Nat.eq_dec k l) as [->|Hne]; [rewrite Es|rewrite El by assumption]; apply T.
  - (* OAddNodes *) destruct Hop as (Hl & Ha & Hnd & Hub). destruct (layer_add_nodes h l args) as [h1 r] eqn:Ea. simpl.
    pose proof (add_nodes_spec l args h W Hl Ha Hnd Hub h1 r Ea) as S. destruct (take_unbound _ _ _) as [added ok]. destruct S as (W1 & G & _).
    apply (keeps_frame l); [apply G|assumption|]. apply (vals_same h); [apply G|assumption].
  - (* OAddMany *) destruct Hop as (Hl & Ha). pose proof (add_many_keeps h l one_shot ns default_fill full_validation W V T) as V'.
    destruct (layer_add_many h l one_shot ns default_fill full_validation) as [h1 r] eqn:Ea. simpl in *.
    destruct (add_many_spec h l _ ns _ _ h1 r W Hl Ha Ea) as (W1 & F & _). apply (keeps_frame l); assumption.
  - (* ORemove *) destruct (layer_remove h l n) as [h1 r] eqn:Er. simpl.
    destruct (remove_spec h l n h1 r (wf_layers h W l) Er) as (S & _). apply (keeps_shrink l); assumption.
  - destruct (layer_remove_many h l is_list items) as [h1 r] eqn:Er. simpl.
    destruct (remove_many_spec h l _ items h1 r (wf_layers h W l) Er) as (S & _). apply (keeps_shrink l); assumption.
  - (* ODetach *) unfold node_detach. destruct (n_collof h n) as [l|]; [|apply keeps_refl; assumption].
    destruct (layer_remove h l n) as [h1 r] eqn:Er. simpl.
    destruct (remove_spec h l n h1 r (wf_layers h W l) Er) as (S & _). apply (keeps_shrink l); assumption.
  - (* ORetain *) destruct Hop as (Hl & Hg & Hn & Hin). destruct (retain_spec h l ns (wf_layers h W l) Hg Hin Hn) as (h1 & E1 & S & _).
    rewrite E1. simpl. apply (keeps_shrink l); assumption.
  - (* OSort *) pose proof (wf_layers h W l) as Hok. destruct (mapM (keyfn h) (content h l)) as [ks|e] eqn:Ek.
    + destruct (sort_spec leb (keyfn h) h l ks Hok Ek) as (h1 & E1 & S & _). rewrite E1. simpl. apply (keeps_shrink l); assumption.
    + rewrite (sort_raises leb (keyfn h) h l e Hok Ek). simpl. apply (keeps_shrink l); [apply compact_shrink|..]; assumption.
  - simpl. apply (keeps_shrink l); [apply compact_shrink, wf_layers|..]; assumption.
  - (* OCompile *) simpl. destruct (prepare_all_spec ls h W Hop) as (W1 & C & N1 & N2 & F & _ & _ & S). cbv zeta in *. split; [assumption|apply S| |].
    + apply (vals_same h); [apply F|assumption].
    + intros k f t. destruct (S k) as [-> _]. apply T.
  - (* OSetField *) simpl. split; [reflexivity|intros; hs; reflexivity| |intros k' f t; hs; apply T].
    intros m. hs. destruct (Nat.eqb m n); [|apply V]. apply dall_dset; [apply V|]. apply (GV k). left. reflexivity.
  - (* ODelField *) destruct (dmem (n_fieldsof h n) k); simpl; [|apply keeps_refl; assumption].
    split; [reflexivity|intros; hs; reflexivity| |intros k' f t; hs; apply T].
    intros m. hs. destruct (Nat.eqb m n); [|apply V]. apply dall_ddel, V.
  - (* OAddField *) destruct (dget (l_fields (h_layer h l)) k) as [x|] eqn:Ek.
    + unfold layer_add_field, dmem. rewrite Ek. simpl. apply keeps_refl; assumption.
    + destruct (add_field_spec h l k d init W Ek) as (h1 & E1 & W1 & Ef & Es & El & N1 & N2 & Ei & Ev). rewrite E1. simpl.
      split; [assumption|apply Es| |].
      * intros n. rewrite Ev. destruct (init && _); [|apply V]. destruct (dt_default d) as [v|] eqn:Ed; [|apply V].
        apply dall_dset; [apply V|]. apply default_In in Ed. eapply PQ; [|exact Ed]. apply (GT k). left. reflexivity.
      * intros k' f t. destruct (Nat.eq_dec k' l) as [->|Hne]; [rewrite Ef|rewrite El by assumption; apply T].
        rewrite in_app_iff. intros [H|[[= <- <-]|[]]]; [eapply T; eauto|]. apply (GT k). left. reflexivity.
  - (* ORemoveField *) pose proof (remove_field_spec h l k leave W) as S. destruct (dmem (l_fields (h_layer h l)) k).
    + destruct S as (h1 & E1 & W1 & Ef & Es & El & N1 & N2 & Ei & Ev). rewrite E1. simpl. split; [assumption|apply Es| |].
      * intros n. rewrite Ev. destruct (negb leave && _); [apply dall_ddel, V|apply V].
      * intros k' f t. destruct (Nat.eq_dec k' l) as [->|Hne]; [rewrite Ef|rewrite El by assumption; apply T].
        intros H. apply ddel_In in H. eapply T; eauto.
    + rewrite S. simpl. apply keeps_refl; assumption.
Qed.
End Step.

(** ** the invariant of programs *)
Record inv (h : heap) (d : doc) : Prop := {
  i_wf : wf h;
  i_known : known h d;
  i_texts : NoDup (dkeys (d_texts d));
  i_layers : NoDup (dkeys (d_layers d));
  i_props : python_value (d_props d);
  i_names : forall k l, In (k, l) (d_layers d) -> l_nameof h l = k;
  i_unique : forall l l', (l < h_lnext h)%nat -> (l' < h_lnext h)%nat -> l_nameof h l = l_nameof h l' -> l = l';
  i_vals : vals (good (d_texts d)) h;
  i_typs : typs plain h }.

Lemma option_good ts v : option_value v -> good ts v.
Proof. destruct 1; simpl; auto. Qed.
Lemma plain_good ts t k v : plain t -> In (k, v) (dt_opts t) -> good ts v.
Proof. intros (_ & _ & _ & _ & H) Hv. apply option_good. eauto. Qed.

Lemma inv_empty : inv empty_heap empty_doc.
Proof.
  split.
  - exact wf_empty.
  - intros k l [].
  - constructor.
  - constructor.
  - constructor; constructor.
  - intros k l [].
  - intros l l' H. inversion H.
  - intros n. split; [constructor|intros k v []].
  - intros l f t [].
Qed.

Section Run.
Context {K : Type} (leb : K -> K -> bool).

Lemma exec_wf h (o : lop (K:=K)) : wf h -> op_ok h o -> wf (fst (exec leb h o)).
Proof.
  intros W Hop. destruct (exec leb h o) as [h1 ok] eqn:E.
  destruct (step_refines leb h (mkA (content h) (h_nnext h) (h_lnext h)) o h1 ok W) as (W1 & _); [split; reflexivity|assumption|assumption|assumption].
Qed.

Lemma inv_heap h h' d : inv h d -> wf h' -> keeps (good (d_texts d)) plain h h' -> inv h' d.
Proof.
  intros [W Kn ND NL Pp Nm Un Vl Ty] W' [L1 L2 L3 L4]. split; auto.
  - intros k l H. rewrite L1. eapply Kn; eauto.
  - intros k l H. rewrite L2. auto.
  - intros l l'. rewrite L1, !L2. auto.
Qed.
Lemma inv_text h d name t : inv h d -> ~ In name (dkeys (d_texts d)) -> inv h (add_text d name t).
Proof.
  intros [W Kn ND NL Pp Nm Un Vl Ty] Hn. split; auto; simpl.
  - apply NoDup_dset. assumption.
  - intros n. apply (dall_mono (good (d_texts d))); [|apply Vl]. intros v. destruct v; simpl; auto.
    intros (H1 & H2 & H3). split; [|auto]. rewrite dget_dset_other; [assumption|]. intros ->. apply Hn.
    apply dmem_In. unfold dmem. rewrite H1. reflexivity.
Qed.
Lemma inv_layers h d ls : inv h d -> NoDup (dkeys ls) -> (forall k l, In (k, l) ls -> In (k, l) (d_layers d)) ->
  inv h (mkDoc (d_props d) (d_texts d) ls).
Proof. intros [W Kn ND NL Pp Nm Un Vl Ty] H1 H2. split; auto; simpl. intros k l H. eapply Kn; eauto. Qed.

Lemma inv_step h d (o : dop (K:=K)) h1 d1 : inv h d -> dop_ok h d o -> drun leb h d o = (h1, d1) -> inv h1 d1.
Proof.
  intros I Hop E. destruct o; cbn [drun dop_ok] in Hop, E.
  - injection E as <- <-. apply inv_text; assumption.
  - injection E as <- <-. unfold set_maintext. destruct (dmem (d_texts d) (s "main")) eqn:Em; [assumption|].
    apply inv_text; [assumption|]. intros H. apply dmem_In in H. congruence.
  - (* DLayer *) destruct Hop as (Hnd & Hp & Hn). unfold add_layer in E. destruct (alloc_layer h (new_layer name fs)) as [h2 l] eqn:El.
    injection E as <- <-. destruct I as [W Kn ND NL Pp Nm Un Vl Ty].
    destruct (alloc_layer_spec h name fs h2 l W Hnd El) as (W1 & E1 & E2 & E3 & E4 & E5 & E6 & E7 & E8).
    assert (Hname : l_nameof h2 l = name) by (unfold l_nameof; rewrite E5; reflexivity).
    assert (Hother : forall k, k <> l -> l_nameof h2 k = l_nameof h k) by (intros k Hk; unfold l_nameof; rewrite E6 by assumption; reflexivity).
    split; simpl; auto.
    + intros k k' H. apply dset_In in H. destruct H as [H|[-> ->]]; [apply Kn in H; lia|lia].
    + apply NoDup_dset. assumption.
    + intros k k' H. apply dset_In in H. destruct H as [H|[-> ->]]; [|assumption]. pose proof (Kn _ _ H). rewrite Hother by lia. auto.
    + intros k k' H H'. destruct (Nat.eq_dec k l) as [->|Hk]; destruct (Nat.eq_dec k' l) as [->|Hk']; auto.
      * rewrite Hname, (Hother k') by assumption. intros X. exfalso. apply (Hn k'); [lia|congruence].
      * rewrite Hname, (Hother k) by assumption. intros X. exfalso. apply (Hn k); [lia|congruence].
      * rewrite !Hother by assumption. apply Un; lia.
    + intros n. unfold n_fieldsof. rewrite E4. apply Vl.
    + intros k f t. destruct (Nat.eq_dec k l) as [->|Hk]; [rewrite E5; simpl; apply Hp|rewrite E6 by assumption; apply Ty].
  - (* DRemoveLayer *) injection E as <- <-. unfold remove_layer. destruct (negb (dmem (d_layers d) name)); [assumption|].
    destruct (referencing h name (d_layers d)) as [q|]; [|assumption]. cbn [rbind]. destruct (negb cascade && _); [assumption|].
    apply inv_layers; [assumption|apply NoDup_ddel; apply I|]. intros k l H. apply ddel_In in H. assumption.
  - injection E as <- <-. destruct I as [W Kn ND NL Pp Nm Un Vl Ty]. split; auto.
  - (* DEncode *) injection E as <- <-. destruct (msgpack_encode h d ex tv) as [h2 r] eqn:Em. simpl.
    destruct (msgpack_encode_heap _ _ _ _ _ _ Em) as (o & Ec & _). destruct (compile_heap _ _ _ _ _ _ Ec) as (pre & suf & E1 & -> & _).
    destruct (prepare_all_spec pre h (i_wf _ _ I) (known_all _ _ _ _ (i_known _ _ I) E1)) as (W1 & C & N1 & N2 & F & _ & _ & S). cbv zeta in *.
    apply (inv_heap h); [assumption|assumption|]. split; [assumption|apply S| |].
    + apply (vals_same _ h); [apply F|apply I].
    + intros k f t. destruct (S k) as [-> _]. apply (i_typs _ _ I).
  - (* DCall *) injection E as <- <-. destruct Hop as (Hop & NL & GV & GT). apply (inv_heap h); [assumption|apply exec_wf; [apply I|assumption]|].
    apply exec_keeps; auto; try apply I. intros t k v. apply plain_good.
Qed.
Lemma inv_prog h d os h' d' : prog leb h d os h' d' -> inv h d -> inv h' d'.
Proof. induction 1 as [|h d o os h1 d1 h2 d2 Hop E _ IH]; intros I; [assumption|]. apply IH. eapply inv_step; eauto. Qed.
Lemma made_inv h d : made leb h d -> inv h d.
Proof. intros (os & H). eapply inv_prog; [eassumption|exact inv_empty]. Qed.

(** dictionaries in reachable states *)
Lemma hist_keys h a os h' a' : hist leb h a os h' a' -> wf h -> wf_keys h -> wf_keys h'.
Proof.
  induction 1 as [|h a o os h1 ok h2 a2 Hop E _ IH]; intros W Kh; [assumption|].
  pose proof (exec_wf h o W Hop) as W1. rewrite E in W1. simpl in W1. apply IH; [assumption|].
  assert (D : (exists name fs, o = OLayer name fs) \/ forall name fs, o <> OLayer name fs).
  { destruct o; try (right; discriminate). left. eauto. }
  destruct D as [(name & fs & ->)|D].
  - cbn [exec op_ok] in *. destruct (alloc_layer h (new_layer name fs)) as [h3 l] eqn:El. injection E as <- _.
    destruct (alloc_layer_spec h name fs h3 l W Hop El) as (_ & _ & _ & _ & E4 & _). simpl. intros n. unfold n_fieldsof. rewrite E4. apply Kh.
  - assert (Kp : keeps (fun _ => True) (fun _ => True) h (fst (exec leb h o))).
    { apply exec_keeps; auto; try (intros ? ? ? ?; exact I). intros n. split; [apply Kh|auto]. }
    rewrite E in Kp. simpl in Kp. intros n. apply (k_vals _ _ _ _ Kp).
Qed.
Lemma reachable_keys h : reachable leb h -> wf_keys h.
Proof. intros (os & a & H). eapply hist_keys; [eassumption|exact wf_empty|]. intros n. constructor. Qed.
End Run.

(** ** what a successful encoding says about a document that a program made *)
Lemma compiled_node h d h1 o : wf h -> known h d -> compile h d false true = (h1, Ok o) -> forall k l n, doc_node h d k l n ->
  exists h', wf h' /\ looks_same h h' /\ (exists b, validate h' l n = Ok b) /\
    (forall f v, In (f, v) (n_fieldsof h n) -> In f (dkeys (l_fields (h_layer h l)))).
Proof.
  intros W Kn E k l n [Hin Hn]. unfold compile in E. destruct (check_refs h d) as [[]|] eqn:Er; [|discriminate].
  destruct (compile_layers _ _ _ _) as [h2 [acc|]] eqn:Ec; [|discriminate].
  destruct (compile_layers_checked _ _ _ _ _ Ec _ _ Hin) as (pre & suf & E1 & E2).
  destruct (prepared_same h pre W (known_all _ _ _ _ Kn E1)) as (W' & S & _). cbv zeta in *.
  exists (fold_left layer_prepare pre h). split; [assumption|]. split; [assumption|].
  destruct (check_nodes_ok _ _ _ E2 n) as [B F]; [rewrite (same_iter _ _ S); assumption|]. split; [assumption|].
  intros f v. rewrite <- (same_fields _ _ S n), <- (same_schema _ _ S l). apply F.
Qed.
Lemma nodespan_iter_inv h a b ns : wf h -> nodespan_iter h a b = Ok ns ->
  exists l p q, nth_error (content h l) p = Some a /\ nth_error (content h l) q = Some b /\ (p <= q)%nat /\ ns = run (content h l) p q.
Proof.
  intros W H. assert (Hl : exists l, n_collof h a = Some l /\ n_collof h b = Some l /\ n_idof h a <= n_idof h b).
  { unfold nodespan_iter in H. unfold node_i in H. destruct (n_idof h a =? -1); [discriminate|]. destruct (n_idof h b =? -1) eqn:Eb; [discriminate|].
    cbn [rbind] in H. destruct (n_idof h a <=? n_idof h b) eqn:El; [|discriminate]. cbn [negb] in H.
    unfold iter_span, node_i in H. rewrite Eb in H. destruct (n_idof h a =? -1); [discriminate|]. cbn [rbind] in H.
    destruct (n_collof h a) as [l|] eqn:Ca; [|discriminate]. rewrite El in H. unfold iter_nodespan, node_i in H. rewrite Eb in H.
    destruct (n_idof h a =? -1); [discriminate|]. cbn [rbind] in H. rewrite El, Ca in H. cbn [negb] in H.
    exists l. split; [reflexivity|]. destruct (n_collof h b) as [l'|] eqn:Cb; cbn in H.
    - destruct (Nat.eqb_spec l l'); [|discriminate]. subst. split; [reflexivity|]. apply Z.leb_le. assumption.
    - discriminate. }
  destruct Hl as (l & Ca & Cb & Hle). destruct (member_nth h a l W Ca) as [p Hp]. destruct (member_nth h b l W Cb) as [q Hq].
  pose proof (id_order h l q p b a (wf_layers h W l) Hq Hp) as O1. assert (Hpq : (p <= q)%nat) by lia.
  destruct (nodespan_spec h l p q a b (wf_layers h W l) Hp Hq Hpq) as (_ & E & _). rewrite E in H. injection H as <-. exists l, p, q. auto.
Qed.
Lemma run_first c p q n : nth_error c p = Some n -> (p <= q)%nat -> In n (run c p q).
Proof.
  intros H Hpq. unfold run. apply nth_error_split in H. destruct H as (a & b & -> & <-).
  rewrite skipn_app, skipn_all, Nat.sub_diag. cbn [app skipn]. replace (S q - length a)%nat with (S (q - length a)) by lia. left. reflexivity.
Qed.

Section Encoded.
Variables (h : heap) (d : doc).
Hypothesis IV : inv h d.

Lemma named_unique a b x : in_named h x a -> in_named h x b -> exists l, n_collof h a = Some l /\ n_collof h b = Some l /\ l_nameof h l = x.
Proof.
  intros (la & A1 & A2) (lb & B1 & B2). assert (la = lb).
  { apply (i_unique _ _ IV); [eapply bound_layer; [apply IV|eassumption]|eapply bound_layer; [apply IV|eassumption]|congruence]. }
  subst lb. exists la. auto.
Qed.
Lemma accept_joined h' t a b : wf h' -> looks_same h h' -> dt_class t <> KBase -> accepts h' t (VNodeSpan a b) -> n_collof h a = n_collof h b.
Proof.
  intros W' S Hb (name & T & A). remember (dt_class t) as c eqn:Ec. inversion A; subst; try congruence.
  - match goal with Hi : int_value _ _ |- _ => inversion Hi end.
  - match goal with Hi : int_value _ _ |- _ => inversion Hi end.
  - match goal with H1 : in_named h' name a, H2 : in_named h' name b |- _ =>
      apply (same_named h' h name) in H1; [|apply looks_same_sym; assumption]; apply (same_named h' h name) in H2; [|apply looks_same_sym; assumption];
      destruct (named_unique a b name H1 H2) as (l & -> & -> & _) end. reflexivity.
  - match goal with H1 : nodespan_iter h' a b = Ok ns |- _ => destruct (nodespan_iter_inv h' a b ns W' H1) as (l & p & q & Hp & Hq & _) end.
    rewrite <- !(same_coll _ _ S). transitivity (Some l); [|symmetry]; (apply layer_ok_member; [apply wf_layers; assumption|eapply nth_error_In; eauto]).
Qed.

Variable targets : forall k f t x, declared h d k f t -> targets_layer t x -> In x (dkeys (d_layers d)).
Lemma own_layer k f t x n l : declared h d k f t -> targets_layer t x -> n_collof h n = Some l -> l_nameof h l = x -> dget (d_layers d) x = Some l.
Proof.
  intros D T C Nm. pose proof (targets k f t x D T) as Hin. apply dmem_In in Hin. unfold dmem in Hin.
  destruct (dget (d_layers d) x) as [l'|] eqn:E; [|discriminate]. f_equal. apply dget_In in E.
  apply (i_unique _ _ IV); [eapply (i_known _ _ IV); eauto|eapply bound_layer; [apply IV|eassumption]|]. rewrite (i_names _ _ IV _ _ E). congruence.
Qed.
Lemma at_content l p n : nth_error (content h l) p = Some n -> at_pos h l p n.
Proof. intros H. unfold at_pos. rewrite iter_wf by apply IV. apply map_nth_error. assumption. Qed.
Lemma own_named k f t x n : declared h d k f t -> targets_layer t x -> in_named h x n -> own_node h d x n.
Proof.
  intros D T (l & C & Nm). destruct (member_nth h n l (i_wf _ _ IV) C) as [p Hp]. exists l, p. split; [|apply at_content; assumption].
  exact (own_layer k f t x n l D T C Nm).
Qed.

Lemma accepted_value k f t v : declared h d k f t -> plain t -> dt_class t <> KBase -> good (d_texts d) v -> accepts h t v -> value_ok h d t v.
Proof.
  intros D (P1 & P2 & _) Hb G (name & T & A).
  assert (TL : forall m, dt_name t = m -> In m [TNodeRef; TNodeRefMany; TNodeRefSpan] -> dget (dt_opts t) (s "layer") = Some (VStr name) -> targets_layer t name).
  { intros m <- H1 H2. split; assumption. }
  unfold type_ok in T. remember (dt_class t) as c eqn:Ec. inversion A; subst; match goal with H : _ = dt_class t |- _ => rewrite <- H in T end; try congruence.
  - apply vo_bool. assumption.
  - match goal with Hi : int_value _ _ |- _ => inversion Hi; subst end; constructor; rewrite T; simpl; auto.
  - match goal with Hi : int_value _ _ |- _ => inversion Hi; subst end; constructor; rewrite T; simpl; auto.
  - apply vo_float; assumption.
  - apply vo_str. assumption.
  - apply vo_bytes; assumption.
  - destruct T as [T1 T2]. destruct G as (G1 & G2 & G3). apply vo_span; auto. split; assumption.
  - destruct T as [T1 T2]. pose proof (TL _ T1 ltac:(simpl; auto) T2) as TT. apply (vo_node _ _ _ name); auto. eapply own_named; eauto.
  - destruct T as [T1 T2]. pose proof (TL _ T1 ltac:(simpl; auto) T2) as TT. apply (vo_nodespan _ _ _ name); auto.
    match goal with H1 : in_named h name a, H2 : in_named h name b |- _ => destruct (named_unique a b name H1 H2) as (l & C1 & C2 & Nm) end.
    destruct (member_nth h a l (i_wf _ _ IV) C1) as [p Hp]. destruct (member_nth h b l (i_wf _ _ IV) C2) as [q Hq]. exists l, p, q.
    split; [exact (own_layer k f t name a l D TT C1 Nm)|]. split; [apply at_content; assumption|]. split; [apply at_content; assumption|].
    pose proof (id_order h l q p b a (wf_layers h (i_wf _ _ IV) l) Hq Hp) as O1.
    repeat match goal with H : node_i h _ = Ok _ |- _ => rewrite (node_i_bound h _ l (i_wf _ _ IV)) in H by assumption; injection H as <- end. lia.
  - destruct T as [T1 T2]. pose proof (TL _ T1 ltac:(simpl; auto) T2) as TT. apply (vo_many _ _ _ name); auto.
    apply Forall_forall. intros n Hn. eapply own_named; eauto.
  - destruct T as [T1 T2]. pose proof (TL _ T1 ltac:(simpl; auto) T2) as TT. apply (vo_coll _ _ _ name); auto.
    match goal with H1 : nodespan_iter h a b = Ok ns, H2 : forall n, In n ns -> _ |- _ =>
      destruct (nodespan_iter_inv h a b ns (i_wf _ _ IV) H1) as (l & p & q & Hp & Hq & Hpq & ->);
      destruct (H2 a (run_first _ _ _ _ Hp Hpq)) as (l' & C & Nm) end.
    assert (C' : n_collof h a = Some l) by (apply layer_ok_member; [apply wf_layers; apply IV|eapply nth_error_In; eauto]).
    assert (l' = l) by congruence. subst l'. exists l, p, q. split; [exact (own_layer k f t name a l D TT C Nm)|].
    split; [apply at_content; assumption|]. split; [apply at_content; assumption|assumption].
Qed.
End Encoded.

Lemma encoded_valid h d h1 b : inv h d -> settled h d -> msgpack_encode h d false true = (h1, Ok b) -> doc_valid h d.
Proof.
  intros IV St E. destruct (msgpack_encode_heap _ _ _ _ _ _ E) as (o & Ec & Ho). destruct (Ho b eq_refl) as [y ->]. clear Ho E.
  pose proof (i_wf _ _ IV) as W. pose proof (i_known _ _ IV) as Kn.
  destruct (compile_checked h d h1 y W Kn Ec) as (R1 & R2 & _).
  assert (Hsch : forall l, schema_ok h l).
  { intros l f t Hf. apply dget_In in Hf. destruct (i_typs _ _ IV _ _ _ Hf) as (_ & _ & H & _). exact H. }
  assert (Hacc : forall k l n f t v, doc_node h d k l n -> dget (l_fields (h_layer h l)) f = Some t -> dget (n_fieldsof h n) f = Some v -> accepts h t v).
  { intros k l n f t v Hn Ht Hv. destruct (compiled_node h d h1 y W Kn Ec k l n Hn) as (h' & W' & S & [b' Hb'] & _).
    assert (Hcoll : n_collof h n = Some l).
    { destruct Hn as [_ Hn]. rewrite iter_wf in Hn by assumption. apply In_map_some in Hn. apply layer_ok_member in Hn; [assumption|apply wf_layers; assumption]. }
    assert (Hcoll' : n_collof h' n = Some l) by (rewrite (same_coll _ _ S); assumption).
    assert (Hs' : schema_ok h' l) by (unfold schema_ok; rewrite (same_schema _ _ S); apply Hsch).
    destruct (validate_spec h' l n W' Hcoll' Hs') as [V1 V2].
    assert (Ha : accepts h' t v).
    { destruct b'.
      - apply (proj1 V1 Hb' f); [rewrite (same_schema _ _ S)|rewrite (same_fields _ _ S)]; assumption.
      - exfalso. destruct (V2 Hb') as (g & u & w & G1 & G2 & _ & G3 & m & ->). rewrite (same_schema _ _ S) in G1. rewrite (same_fields _ _ S) in G2.
        destruct (St k l n g u _ Hn G1 G2) as [Q _]. exact (Q G3 m eq_refl). }
    assert (Kb : dt_class t = KBase \/ dt_class t <> KBase) by (destruct (dt_class t); [left; reflexivity|right; discriminate..]).
    destruct Kb as [Kb|Kb].
    - exists []. unfold type_ok. rewrite Kb. split; [exact I|constructor].
    - apply (same_accepts h' h); auto; [apply looks_same_sym; assumption|]. intros a c ->. rewrite !(same_coll _ _ S).
      exact (accept_joined h d IV h' t a c W' S Kb Ha). }
  split; [split|..].
  - exact W.
  - exact Kn.
  - apply IV.
  - apply IV.
  - apply IV.
  - intros k f t D. pose proof D as (l & H1 & H2). destruct (i_typs _ _ IV _ _ _ H2) as (P1 & P2 & _ & P4 & P5).
    destruct (R1 k f t D) as (O & _). repeat split; auto; apply O.
  - intros k l n f v t Hn Hv Ht. assert (D : declared h d k f t) by (exists l; split; [apply Hn|apply dget_In; assumption]).
    assert (Kb : dt_class t = KBase \/ dt_class t <> KBase) by (destruct (dt_class t); [left; reflexivity|right; discriminate..]).
    destruct Kb as [Kb|Kb]; [apply (St k l n f t v Hn Ht Hv); assumption|].
    apply (accepted_value h d IV (fun k f t x D => proj1 (proj2 (R1 k f t D)) x) k f t v D); auto.
    + apply dget_In in Ht. apply (i_typs _ _ IV _ _ _ Ht).
    + apply dget_In in Hv. apply (i_vals _ _ IV n) in Hv. assumption.
    + eapply Hacc; eauto.
  - apply IV.
  - intros k l _. apply Hsch.
  - intros k f t x D. apply R1 with (1 := D).
  - intros k f t x D. apply R1 with (1 := D).
  - intros k l n f v Hn Hf. eapply R2; eauto.
  - intros k l n Hn f t v Ht Hv. eapply Hacc; eauto.
Qed.
