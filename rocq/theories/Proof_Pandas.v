(** NodeLayerCollection.to_pandas. *)
From Verif Require Import PyBase PyBaseFacts Model_Text Model_Heap Model_Layer Model_Types Model_Msgpack Model_Codec Model_Coerce Model_Debug Spec_Layer Spec_Debug Proof_Msgpack.
Local Open Scope Z_scope.

Lemma mapM_ok {A B} (f : A -> res B) l : forall ys, mapM f l = Ok ys <-> Forall2 (fun x y => f x = Ok y) l ys.
Proof.
  induction l as [|x l IH]; intros ys; cbn [mapM].
  - split; [intros H; injection H as <-; constructor|intros H; inversion H; reflexivity].
  - split.
    + destruct (f x) as [y|] eqn:E; cbn [rbind]; [|discriminate]. destruct (mapM f l) as [zs|]; cbn [rbind]; [|discriminate]. intros H. injection H as <-. constructor; [exact E|]. apply IH. reflexivity.
    + intros H. inversion H as [|? y ? zs E F]; subst. rewrite E. cbn [rbind]. apply IH in F. rewrite F. reflexivity.
Qed.
Lemma cell_is h m ft n v : pandas_cell h m ft n = Ok v -> (m = true -> dt_name (snd ft) = TSpan -> match dget (n_fieldsof h n) (fst ft) with None | Some (VSpan _ _ _ _) => True | _ => False end) ->
  cell_of m (dt_name (snd ft)) (dget (n_fieldsof h n) (fst ft)) v.
Proof.
  unfold pandas_cell. destruct (m && tname_eqb (dt_name (snd ft)) TSpan) eqn:M.
  - apply andb_prop in M. destruct M as [-> T]. assert (T' : dt_name (snd ft) = TSpan) by (destruct (dt_name (snd ft)); try discriminate; reflexivity). rewrite T'.
    intros H S. specialize (S eq_refl eq_refl). destruct (dget (n_fieldsof h n) (fst ft)) as [w|]; [|injection H as <-; constructor]. destruct w; try destruct S. cbn in H. injection H as <-. constructor; reflexivity.
  - intros H _. injection H as <-. destruct (dget (n_fieldsof h n) (fst ft)) as [w|]; [|constructor]. constructor. destruct m; [right|auto]. intros E. rewrite E in M. discriminate.
Qed.
Lemma columns_is h ns m fs : forall data out, pandas_columns h ns m fs data = Ok out ->
  (forall f, ~ In f (map fst fs) -> dget out f = dget data f) /\
  (forall f, In f (map fst fs) -> exists t col, In (f, t) fs /\ dget out f = Some col /\ Forall2 (fun n v => pandas_cell h m (f, t) n = Ok v) ns col).
Proof.
  induction fs as [|[f t] fs IH]; intros data out H; cbn [pandas_columns] in H.
  - injection H as <-. split; [reflexivity|]. intros f [].
  - destruct (mapM (pandas_cell h m (f, t)) ns) as [col|] eqn:E; [|discriminate]. cbn [rbind fst] in H. destruct (IH _ _ H) as [A B]. apply mapM_ok in E. split.
    + intros g N. cbn [map fst In] in N. rewrite (A g) by tauto. apply dget_dset_other. intros ->. tauto.
    + intros g I. destruct (in_dec (list_eq_dec N.eq_dec) g (map fst fs)) as [J|J].
      * destruct (B g J) as (t' & c & K1 & K2 & K3). exists t', c. split; [right; exact K1|auto].
      * cbn [map fst In] in I. destruct I as [<-|I]; [|contradiction]. exists t, col. split; [left; reflexivity|]. split; [|exact E]. rewrite (A f J). apply dget_dset_same.
Qed.
Lemma columns_keys h ns m fs : forall data out, pandas_columns h ns m fs data = Ok out -> NoDup (dkeys data ++ map fst fs) -> dkeys out = dkeys data ++ map fst fs.
Proof.
  induction fs as [|[f t] fs IH]; intros data out H N; cbn [pandas_columns] in H.
  - injection H as <-. cbn. rewrite app_nil_r. reflexivity.
  - destruct (mapM (pandas_cell h m (f, t)) ns) as [col|] eqn:E; [|discriminate]. cbn [rbind fst] in H.
    assert (K : dkeys (dset data f col) = dkeys data ++ [f]). { rewrite dkeys_dset. destruct (dmem data f) eqn:M; [|reflexivity]. apply dmem_In in M. cbn [map fst] in N. apply NoDup_remove_2 in N. destruct N. apply in_or_app. left. exact M. }
    rewrite (IH _ _ H); rewrite K, <- app_assoc; [reflexivity|exact N].
Qed.
Lemma F2_impl {A B} (P Q : A -> B -> Prop) l r : (forall a b, P a b -> Q a b) -> Forall2 P l r -> Forall2 Q l r.
Proof. intros I F. induction F; constructor; auto. Qed.
Lemma fields_some h l fs d : pandas_fields h l (Some fs) = Ok d <-> Forall2 (fun f ft => fst ft = f /\ dget (l_fields (h_layer h l)) f = Some (snd ft)) fs d.
Proof.
  etransitivity; [exact (mapM_ok (fun f => let* t := dgetE (l_fields (h_layer h l)) f in Ok (f, t)) fs d)|]. split; intros H; revert H; apply F2_impl; cbn beta; intros f [g t].
  - unfold dgetE. destruct (dget (l_fields (h_layer h l)) f); cbn [rbind fst snd]; [|discriminate]. intros Q. injection Q as <- <-. auto.
  - cbn [fst snd]. intros [<- E]. unfold dgetE. rewrite E. reflexivity.
Qed.
Lemma fields_of h l fields fs : pandas_fields h l fields = Ok fs -> NoDup (dkeys (l_fields (h_layer h l))) -> map fst fs = match fields with None => dkeys (l_fields (h_layer h l)) | Some l => l end /\
  forall f t, In (f, t) fs -> dget (l_fields (h_layer h l)) f = Some t.
Proof.
  intros H N. destruct fields as [q|].
  - apply fields_some in H. induction H as [|f [g t] q fs [E D] F IH]; [split; [reflexivity|intros ? ? []]|]. cbn [fst snd] in *. subst g. destruct IH as [IH1 IH2]. split; [cbn; congruence|]. intros f' t' [K|K]; [injection K as <- <-; exact D|exact (IH2 _ _ K)].
  - cbn in H. injection H as <-. split; [reflexivity|]. intros f t I. apply dget_nodup; assumption.
Qed.
(** every column *)
Theorem frame_cells h l fields m inc fr : NoDup (dkeys (l_fields (h_layer h l))) -> to_pandas h l fields m inc = Ok fr ->
  let fs := match fields with None => dkeys (l_fields (h_layer h l)) | Some q => q end in
  (forall f, dmem fr f = true <-> In f fs \/ inc = true /\ f = s "__ref") /\
  (inc = true -> dget fr (s "__ref") = Some (map VNode (content h l))) /\
  (forall f, In f fs -> (inc = true -> f <> s "__ref") -> exists t col, dget (l_fields (h_layer h l)) f = Some t /\ dget fr f = Some col /\ length col = length (content h l) /\
     forall k n v, nth_error (content h l) k = Some n -> nth_error col k = Some v ->
       (m = true -> dt_name t = TSpan -> match dget (n_fieldsof h n) f with None | Some (VSpan _ _ _ _) => True | _ => False end) -> cell_of m (dt_name t) (dget (n_fieldsof h n) f) v).
Proof.
  intros ND H. unfold to_pandas in H. destruct (pandas_fields h l fields) as [fs0|] eqn:Ef; [|discriminate]. cbn [rbind] in H. destruct (pandas_columns h (live (l_nodesof h l)) m fs0 []) as [data|] eqn:Ec; [|discriminate]. cbn [rbind] in H.
  apply Ok_inj in H. subst fr. destruct (fields_of _ _ _ _ Ef ND) as [K1 K2]. destruct (columns_is _ _ _ _ _ _ Ec) as [A B]. cbn zeta. rewrite <- K1.
  assert (M : forall f, dmem data f = true <-> In f (map fst fs0)).
  { intros f. unfold dmem. split.
    - intros Q. destruct (in_dec (list_eq_dec N.eq_dec) f (map fst fs0)) as [J|J]; [exact J|]. rewrite (A f J) in Q. discriminate.
    - intros I. destruct (B f I) as (t & col & _ & -> & _). reflexivity. }
  split; [|split].
  - intros f. destruct inc.
    + split.
      * intros Q. destruct (list_eq_dec N.eq_dec f (s "__ref")) as [->|Ne]; [auto|]. left. apply M. unfold dmem in *. rewrite dget_dset_other in Q by (first [exact Ne | intros q; apply Ne; symmetry; exact q]). exact Q.
      * intros [I|[_ ->]]; unfold dmem; [|rewrite dget_dset_same; reflexivity]. destruct (list_eq_dec N.eq_dec f (s "__ref")) as [->|Ne]; [rewrite dget_dset_same; reflexivity|]. rewrite dget_dset_other by (first [exact Ne | intros q; apply Ne; symmetry; exact q]). apply M in I. exact I.
    + rewrite M. split; [auto|]. intros [I|[Q _]]; [exact I|discriminate].
  - intros ->. apply dget_dset_same.
  - intros f I NR. destruct (B f I) as (t & col & I2 & D & F). exists t, col. split; [exact (K2 _ _ I2)|]. split; [|split].
    + destruct inc; [|exact D]. rewrite dget_dset_other; [exact D|]. intros Q. apply (NR eq_refl). first [exact Q | symmetry; exact Q].
    + unfold content. clear -F. induction F; cbn; congruence.
    + intros k n v Hn Hv S. unfold content in Hn. apply (cell_is h m (f, t) n v); [|exact S]. clear -F Hn Hv. revert k Hn Hv. induction F as [|a b x y E F IH]; intros [|k] Hn Hv; try discriminate; cbn in Hn, Hv; [congruence|exact (IH k Hn Hv)].
Qed.
Theorem frame_order h l fields m inc fr : NoDup (dkeys (l_fields (h_layer h l))) -> to_pandas h l fields m inc = Ok fr ->
  let fs := match fields with None => dkeys (l_fields (h_layer h l)) | Some q => q end in
  NoDup fs -> ~ In (s "__ref") fs -> dkeys fr = fs ++ (if inc then [s "__ref"] else []).
Proof.
  intros ND H fs Nf Nr. unfold to_pandas in H. destruct (pandas_fields h l fields) as [fs0|] eqn:Ef; [|discriminate]. cbn [rbind] in H. destruct (pandas_columns h (live (l_nodesof h l)) m fs0 []) as [data|] eqn:Ec; [|discriminate]. cbn [rbind] in H.
  apply Ok_inj in H. subst fr. destruct (fields_of _ _ _ _ Ef ND) as [K1 _]. fold fs in K1. pose proof (columns_keys _ _ _ _ _ _ Ec) as K. cbn [dkeys map app] in K. rewrite K1 in K. specialize (K Nf).
  destruct inc; [|rewrite app_nil_r; exact K]. rewrite dkeys_dset, K. destruct (dmem data (s "__ref")) eqn:M; [|reflexivity]. apply dmem_In in M. rewrite K in M. contradiction.
Qed.
Lemma columns_total h ns m fs : (m = false \/ forall n f t, In n ns -> In (f, t) fs -> dt_name t = TSpan -> match dget (n_fieldsof h n) f with None | Some (VSpan _ _ _ _) => True | _ => False end) -> forall data, exists out, pandas_columns h ns m fs data = Ok out.
Proof.
  induction fs as [|[f t] fs IH]; intros S data; cbn [pandas_columns]; [eauto|].
  assert (C : exists col, mapM (pandas_cell h m (f, t)) ns = Ok col).
  { assert (T : forall n, In n ns -> exists v, pandas_cell h m (f, t) n = Ok v).
    { intros n I. unfold pandas_cell. cbn [fst snd]. destruct (m && tname_eqb (dt_name t) TSpan) eqn:Q; [|eauto]. apply andb_prop in Q. destruct Q as [-> Q]. destruct S as [S|S]; [discriminate|].
      assert (T : dt_name t = TSpan) by (destruct (dt_name t); try discriminate; reflexivity). specialize (S n f t I (or_introl eq_refl) T). destruct (dget (n_fieldsof h n) f) as [w|]; [|eauto]. destruct w; try destruct S. cbn. eauto. }
    clear -T. induction ns as [|n ns IH]; [exists []; reflexivity|]. destruct (T n (or_introl eq_refl)) as [v E]. destruct IH as [c F]; [intros k I; apply T; right; exact I|]. exists (v :: c). cbn [mapM]. rewrite E. cbn [rbind]. rewrite F. reflexivity. }
  destruct C as [col ->]. cbn [rbind]. apply IH. destruct S as [S|S]; [auto|]. right. intros n g u I J. apply S; [exact I|right; exact J].
Qed.
Theorem frame_made h l fields m inc : NoDup (dkeys (l_fields (h_layer h l))) ->
  (m = false \/ forall n f t, In n (content h l) -> dget (l_fields (h_layer h l)) f = Some t -> dt_name t = TSpan -> match dget (n_fieldsof h n) f with None | Some (VSpan _ _ _ _) => True | _ => False end) ->
  let fs := match fields with None => dkeys (l_fields (h_layer h l)) | Some q => q end in
  ((exists fr, to_pandas h l fields m inc = Ok fr) <-> forall f, In f fs -> In f (dkeys (l_fields (h_layer h l)))) /\
  (forall e, to_pandas h l fields m inc = Err e -> e = KeyError).
Proof.
  intros ND S. cbn zeta.
  assert (G : forall fs0, pandas_fields h l fields = Ok fs0 -> exists fr, to_pandas h l fields m inc = Ok fr).
  { intros fs0 E. unfold to_pandas. rewrite E. cbn [rbind]. destruct (fields_of _ _ _ _ E ND) as [_ K].
    destruct (columns_total h (live (l_nodesof h l)) m fs0) with (data := @nil (pystr * list value)) as [out Q]; [destruct S as [S|S]; [auto|right; intros n f t I J; exact (S n f t I (K f t J))]|]. rewrite Q. cbn [rbind]. eauto. }
  split.
  - split.
    + intros [fr H]. unfold to_pandas in H. destruct (pandas_fields h l fields) as [fs0|] eqn:E; [|discriminate]. destruct (fields_of _ _ _ _ E ND) as [K1 K2]. rewrite <- K1. intros f I. apply in_map_iff in I. destruct I as ([g t] & <- & I). cbn [fst]. apply K2 in I. apply dget_In in I. apply (in_map fst) in I. exact I.
    + intros A. destruct fields as [q|]; [|exact (G _ eq_refl)].
      assert (X : exists fs0, pandas_fields h l (Some q) = Ok fs0).
      { assert (X : exists d, Forall2 (fun f ft => fst ft = f /\ dget (l_fields (h_layer h l)) f = Some (snd ft)) q d).
        { clear -A. induction q as [|f q IH]; [exists []; constructor|]. destruct IH as [d F]; [intros g I; apply A; right; exact I|]. specialize (A f (or_introl eq_refl)). destruct (dget (l_fields (h_layer h l)) f) as [t|] eqn:E; [exists ((f, t) :: d); constructor; [auto|exact F]|]. apply dget_None in E. contradiction. }
        destruct X as [d F]. exists d. apply fields_some. exact F. }
      destruct X as [fs0 E]. exact (G _ E).
  - intros e H. destruct (pandas_fields h l fields) as [fs0|x] eqn:E; [destruct (G _ eq_refl) as [fr F]; congruence|].
    unfold to_pandas in H. rewrite E in H. cbn [rbind] in H. assert (x = e) by congruence. subst x. destruct fields as [q|]; [|discriminate]. cbn [pandas_fields] in E. clear -E. revert E. induction q as [|f q IH]; cbn [mapM]; [discriminate|].
    unfold dgetE at 1. destruct (dget (l_fields (h_layer h l)) f); cbn [rbind]; [|congruence]. destruct (mapM (fun f0 => let* t := dgetE (l_fields (h_layer h l)) f0 in Ok (f0, t)) q); cbn [rbind]; [discriminate|]. intros Q. apply IH. congruence.
Qed.
