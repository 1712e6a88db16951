(** Proofs about Model_JCodec.v on bytes of any origin: the nodes and their references. *)
From Verif Require Import PyBase PyBaseFacts Model_Text Model_Heap Model_Layer Model_Types Model_Msgpack Model_Codec Model_JUnits Model_JLayer Model_JStream Model_JCodec
  Spec_Msgpack Spec_JUnits Spec_JCodec Spec_JEncode Spec_JDecode Proof_Msgpack Proof_Decode Proof_JUnits Proof_JCodec Proof_JEncode2 Proof_JDecode Proof_JDecode2.
Local Open Scope Z_scope.

(** ** values as they are read *)
Definition texts_t := dict (list N * list Z).
Inductive raw (texts : texts_t) (t : jdtype) : jv -> Prop :=
| rw_int i : ty_name t = JT TI32 -> int_range i -> raw texts t (JInt i)
| rw_ref i : ty_name t = JT TNodeRef -> raw texts t (JInt i)
| rw_long i : ty_name t = JT TI64 -> long_range i -> raw texts t (JLong i)
| rw_double b : ty_name t = JT TF64 -> (b < 18446744073709551616)%N -> raw texts t (JDouble b)
| rw_bool b : ty_name t = JT TBool -> raw texts t (JBool b)
| rw_str x : ty_name t = JT TString -> raw texts t (JStr x)
| rw_bin x : ty_name t = JT TBinary -> bytes x -> raw texts t (JBin x)
| rw_ext y x : ty_name t = JT TExt -> argument t (s "type") y -> bytes x -> raw texts t (JExt y x)
| rw_span c u offs a b : ty_name t = JT TSpan -> argument t (s "context") c -> dget texts c = Some (u, offs) -> In a offs -> In b offs -> raw texts t (JSpan c a b)
| rw_hold is : ty_name t = JT TNodeRefMany -> raw texts t (JHold is)
| rw_holdspan a b : ty_name t = JT TNodeRefSpan -> raw texts t (JHoldSpan a b).
Lemma arg_name_ok t key x : arg_name t key = Ok x -> argument t key x.
Proof. unfold arg_name, argument. destruct (dget (ty_args t) key) as [v|]; [|discriminate]. destruct v; try discriminate. intros H. apply Ok_inj in H. subst. reflexivity. Qed.
Lemma java_get_In {A} (l : list A) i x : java_get l i = Ok x -> In x l.
Proof.
  unfold java_get. destruct (0 <=? i); [|discriminate]. destruct (nth_error l (Z.to_nat i)) eqn:E; [|discriminate]. intros H. apply Ok_inj in H. subst. eapply nth_error_In; exact E.
Qed.
Lemma ints_good n : good (fun _ => True) (jread_ints n).
Proof.
  induction n as [|n IH]; cbn [jread_ints]; [apply good_ret; exact I|]. eapply good_bind; [apply muInt_good|]. intros x _.
  eapply good_bind; [exact IH|]. intros q _. apply good_ret. exact I.
Qed.
Lemma cell_good texts t tn key : ty_name t = JT tn -> jkey t = Ok key -> good (raw texts t) (jcell texts tn key).
Proof.
  intros Et Ek. unfold jkey in Ek. rewrite Et in Ek. destruct tn; unfold jcell.
  - apply good_err.
  - eapply good_bind; [apply muInt_good|]. intros v Hv. apply good_ret. apply rw_int; assumption.
  - eapply good_bind; [apply muLong_good|]. intros v Hv. apply good_ret. apply rw_long; assumption.
  - eapply good_bind; [apply muDouble_good|]. intros v Hv. apply good_ret. apply rw_double; assumption.
  - eapply good_bind; [apply muBool_good|]. intros v Hv. apply good_ret. apply rw_bool; assumption.
  - eapply good_bind; [apply muString_good|]. intros v Hv. apply good_ret. apply rw_str; assumption.
  - eapply good_bind; [apply muArray_good|]. intros n _. eapply good_bind; [apply payload_good|]. intros v Hv. apply good_ret. apply rw_bin; assumption.
  - eapply good_bind; [apply muInt_good|]. intros v Hv. apply good_ret. apply rw_ref; assumption.
  - eapply good_bind; [apply muArray_good|]. intros n _. eapply good_bind; [apply ints_good|]. intros v _. apply good_ret. apply rw_hold; assumption.
  - apply arg_name_ok in Ek. eapply good_bind; [apply muInt_good|]. intros a _. eapply good_bind; [apply muInt_good|]. intros b _.
    destruct (dget texts key) as [[u offs]|] eqn:E; [|apply good_err]. apply good_pure. intros x Ex. apply good_pure. intros y Ey. apply good_ret.
    eapply rw_span; try eassumption; eapply java_get_In; eassumption.
  - apply arg_name_ok in Ek. eapply good_bind; [apply muValue_good|]. intros o [Ho _]. destruct o; try apply good_err. apply good_ret. inversion Ho; subst. apply rw_ext; assumption.
  - eapply good_bind; [apply muArray_good|]. intros n _. apply good_if; intros _; [apply good_err|]. eapply good_bind; [apply muInt_good|]. intros a _.
    eapply good_bind; [apply muInt_good|]. intros b _. apply good_ret. apply rw_holdspan. assumption.
Qed.
Lemma try_nil_good : good (fun _ => True) mu_try_nil.
Proof.
  intros bs a r Hb H. unfold mu_try_nil in H. destruct bs as [|b bs]; [discriminate|]. inversion Hb; subst.
  destruct (classify b); apply Ok_inj in H; injection H as <- <-; split; trivial.
Qed.
Lemma nil_bytes bs r : bytes bs -> mu_nil bs = Ok r -> bytes r.
Proof. intros Hb H. unfold mu_nil in H. destruct bs as [|b bs]; [discriminate|]. inversion Hb; subst. destruct (classify b); try discriminate. apply Ok_inj in H. subst. assumption. Qed.
Definition opt_raw (texts : texts_t) (t : jdtype) (o : option jv) : Prop := forall v, o = Some v -> raw texts t v.
Lemma cell_opt_good texts t tn key : ty_name t = JT tn -> jkey t = Ok key -> good (opt_raw texts t) (jcell_opt texts tn key).
Proof.
  intros Et Ek. unfold jcell_opt. eapply good_bind; [apply try_nil_good|]. intros none _. destruct none.
  - intros bs o r Hb H. destruct (match tn with TSpan => mu_nil bs | _ => Ok bs end) as [r'|] eqn:E; [|discriminate]. cbn [rbind] in H. apply Ok_inj in H. injection H as <- <-.
    split; [intros v; discriminate|]. destruct tn; try (apply Ok_inj in E; subst; assumption). eapply nil_bytes; eassumption.
  - eapply good_bind; [apply cell_good; eassumption|]. intros v Hv. apply good_ret. intros w Ew. injection Ew as <-. exact Hv.
Qed.
Lemma cells_good texts t tn key n : ty_name t = JT tn -> jkey t = Ok key -> good (fun col => length col = n /\ Forall (opt_raw texts t) col) (jcells texts tn key n).
Proof.
  intros Et Ek. induction n as [|n IH]; cbn [jcells]; [apply good_ret; split; [reflexivity|constructor]|].
  eapply good_bind; [apply cell_opt_good; eassumption|]. intros o Ho. eapply good_bind; [exact IH|]. intros q [L F]. apply good_ret. split; [cbn; f_equal; exact L|constructor; assumption].
Qed.

(** ** columns *)
Definition row_read (texts : texts_t) (fs : dict jdtype) (row : dict jv) : Prop :=
  NoDup (dkeys row) /\ forall f v, In (f, v) row -> exists t, In (f, t) fs /\ raw texts t v.
Lemma put_column_len f : forall nodes col, length (put_column f nodes col) = length nodes.
Proof. induction nodes as [|n r IH]; intros [|[v|] c]; cbn; try reflexivity; f_equal; apply IH. Qed.
Lemma put_column_read texts fs f t : forall nodes col, Forall (row_read texts fs) nodes -> Forall (opt_raw texts t) col ->
  Forall (row_read texts (fs ++ [(f, t)])) (put_column f nodes col).
Proof.
  assert (W : forall row, row_read texts fs row -> row_read texts (fs ++ [(f, t)]) row).
  { intros row [ND H]. split; [assumption|]. intros g v I. destruct (H g v I) as (u & Hu & Hr). exists u. split; [apply in_or_app; left; assumption|assumption]. }
  induction nodes as [|n r IH]; intros col Hn Hc; [destruct col; constructor|]. inversion Hn as [|? ? N1 N2]; subst.
  destruct col as [|o c]; [cbn; constructor; [apply W; assumption|eapply Forall_impl; [exact W|exact N2]]|]. inversion Hc as [|? ? C1 C2]; subst.
  destruct o as [v|]; cbn [put_column]; constructor; try (apply IH; assumption).
  - destruct N1 as [ND H]. split; [apply NoDup_dset; assumption|]. intros g w I. destruct (dset_In _ _ _ _ _ I) as [E|E].
    + injection E as -> ->. exists t. split; [apply in_or_app; right; left; reflexivity|apply C1; reflexivity].
    + destruct (H g w E) as (u & Hu & Hr). exists u. split; [apply in_or_app; left; assumption|assumption].
  - apply W. assumption.
Qed.
Definition readable_type (t : jdtype) : Prop := exists tn key, ty_name t = JT tn /\ jkey t = Ok key.
Lemma columns_good texts : forall fs done nodes, Forall (row_read texts done) nodes ->
  good (fun ns => length ns = length nodes /\ Forall (row_read texts (done ++ fs)) ns /\ Forall (fun ft => readable_type (snd ft)) fs) (jread_columns texts fs nodes).
Proof.
  induction fs as [|[f t] fs IH]; intros done nodes Hn; cbn [jread_columns].
  { apply good_ret. rewrite app_nil_r. repeat split; [assumption|constructor]. }
  eapply good_bind; [apply muBool_good|]. intros sp _. apply good_if; intros _; [apply good_err|]. eapply good_bind; [apply muArray_good|]. intros _ _.
  apply good_pure. intros key Ek. destruct (ty_name t) as [|tn|] eqn:Et; try apply good_err.
  eapply good_bind; [apply cells_good; eassumption|]. intros col [_ Hc]. eapply good_weak; [|apply (IH (done ++ [(f, t)])); apply put_column_read; assumption].
  intros ns (L & F & R). rewrite <- app_assoc in F. split; [rewrite L; apply put_column_len|]. split; [exact F|]. constructor; [|exact R]. exists tn, key. split; assumption.
Qed.
Definition layer_read (texts : texts_t) (fs : dict jdtype) (ns : list (dict jv)) : Prop :=
  zlen ns < 2147483648 /\ Forall (row_read texts fs) ns /\ Forall (fun ft => readable_type (snd ft)) fs.
Lemma layer_good texts fs : good (layer_read texts fs) (jread_layer texts fs).
Proof.
  unfold jread_layer. eapply good_bind; [apply muInt_good|]. intros _ _. eapply good_bind; [apply muInt_good|]. intros n Hn. apply good_if; intros E; [apply good_err|].
  apply Z.ltb_ge in E. eapply good_weak; [|apply (columns_good texts fs [])].
  - intros ns (L & F & R). split; [|split; assumption]. unfold zlen. rewrite L, repeat_length. unfold int_range in Hn. lia.
  - apply Forall_forall. intros row I. apply repeat_spec in I. subst row. split; [constructor|]. intros f v [].
Qed.
Lemma layers_good texts : forall sch, good (fun ls => Forall2 (fun kf kl => fst kl = fst kf /\ fst (snd kl) = snd kf /\ layer_read texts (snd kf) (snd (snd kl))) sch ls) (jread_layers texts sch).
Proof.
  induction sch as [|[k fs] sch IH]; cbn [jread_layers]; [apply good_ret; constructor|]. eapply good_bind; [apply layer_good|]. intros ns Hn.
  eapply good_bind; [exact IH|]. intros q Hq. apply good_ret. constructor; [cbn [fst snd]; auto|exact Hq].
Qed.

(** ** references *)
Definition is_ref (n : jname) : Prop := In n [JT TNodeRef; JT TNodeRefMany; JT TNodeRefSpan].
(** the layer x has a node at p, by the sizes *)
Definition sized_node (sizes : dict nat) (x : pystr) (p : nat) : Prop := exists n, dget sizes x = Some n /\ (p < n)%nat.
Inductive found (texts : texts_t) (sizes : dict nat) (t : jdtype) : jv -> Prop :=
| fd_raw v : ~ is_ref (ty_name t) -> raw texts t v -> found texts sizes t v
| fd_node x p : ty_name t = JT TNodeRef -> argument t (s "layer") x -> sized_node sizes x p -> found texts sizes t (JNode x p)
| fd_nodes x ps : ty_name t = JT TNodeRefMany -> argument t (s "layer") x -> ps <> [] -> Forall (sized_node sizes x) ps -> found texts sizes t (JNodes x ps)
| fd_nodespan x p q : ty_name t = JT TNodeRefSpan -> argument t (s "layer") x -> (p <= q)%nat -> sized_node sizes x q -> found texts sizes t (JNodeSpan x p q).
Lemma jtarget_ok sizes x i p : jtarget (dget sizes x) i = Ok p -> sized_node sizes x p.
Proof.
  unfold jtarget. destruct (dget sizes x) as [n|] eqn:E; [|discriminate]. destruct (Z.leb_spec 0 i); [|discriminate]. destruct (Z.ltb_spec i (Z.of_nat n)); [|discriminate].
  cbn [andb]. intros H'. apply Ok_inj in H'. subst p. exists n. split; [exact E|lia].
Qed.
Lemma jreplace_ok texts sizes t x v w : is_ref (ty_name t) -> argument t (s "layer") x -> raw texts t v -> jreplace x (dget sizes x) v = Ok w -> found texts sizes t w.
Proof.
  intros Rf Ha Hr H. inversion Hr; subst; try (match goal with E : ty_name t = _ |- _ => rewrite E in Rf; cbn in Rf; intuition discriminate end); cbn [jreplace] in H.
  - destruct (jtarget (dget sizes x) i) as [p|] eqn:E; [|discriminate]. cbn [rbind] in H. apply Ok_inj in H. subst w. apply fd_node; [assumption..|]. eapply jtarget_ok; exact E.
  - destruct is as [|i is]; [discriminate|]. destruct (mapM (jtarget (dget sizes x)) (i :: is)) as [ks|] eqn:E; [|discriminate]. cbn [rbind] in H. apply Ok_inj in H. subst w.
    apply fd_nodes; try assumption.
    + intros ->. apply mapM_Ok_length in E. discriminate.
    + apply mapM_Forall2' in E. clear - E. induction E as [|a b l m E F IH]; constructor; [eapply jtarget_ok; exact E|exact IH].
  - destruct (jtarget (dget sizes x) a) as [p|] eqn:E; [|discriminate]. cbn [rbind] in H. destruct (jtarget (dget sizes x) b) as [q|] eqn:E2; [|discriminate]. cbn [rbind] in H.
    destruct (Nat.leb_spec p q); [|discriminate]. apply Ok_inj in H. subst w. apply fd_nodespan; try assumption. eapply jtarget_ok; exact E2.
Qed.
(** in the middle of it: the fields in [done] are resolved, those in [rest] are not *)
Definition row_mid (texts : texts_t) (sizes : dict nat) (done rest : dict jdtype) (row : dict jv) : Prop :=
  NoDup (dkeys row) /\ forall f v, In (f, v) row -> (exists t, In (f, t) done /\ found texts sizes t v) \/ (exists t, In (f, t) rest /\ raw texts t v).
Lemma NoDup_app_cons_not {A} (a : list A) x b : NoDup (a ++ x :: b) -> ~ In x a /\ ~ In x b.
Proof. intros H. apply NoDup_remove_2 in H. split; intros I; apply H; apply in_or_app; auto. Qed.
Lemma key_once (done : dict jdtype) f t rest g u : NoDup (dkeys (done ++ (f, t) :: rest)) -> In (g, u) ((f, t) :: rest) -> g = f -> u = t.
Proof.
  intros ND [E|I] ->; [congruence|]. exfalso. unfold dkeys in ND. rewrite map_app in ND. cbn [map fst] in ND. destruct (NoDup_app_cons_not _ _ _ ND) as [_ H]. apply H.
  apply (in_map fst) in I. exact I.
Qed.
Lemma key_not_done (done : dict jdtype) f t rest u : NoDup (dkeys (done ++ (f, t) :: rest)) -> ~ In (f, u) done.
Proof.
  intros ND I. unfold dkeys in ND. rewrite map_app in ND. cbn [map fst] in ND. destruct (NoDup_app_cons_not _ _ _ ND) as [H _]. apply H. apply (in_map fst) in I. exact I.
Qed.
Lemma in_snoc {A} (x : A) l y : In x l -> In x (l ++ [y]).
Proof. intros. apply in_or_app. left. assumption. Qed.
Lemma resolve_step texts sizes done f t rest nodes ns : NoDup (dkeys (done ++ (f, t) :: rest)) -> Forall (row_mid texts sizes done ((f, t) :: rest)) nodes ->
  jresolve_field sizes (f, t) nodes = Ok ns ->
  length ns = length nodes /\ Forall (row_mid texts sizes (done ++ [(f, t)]) rest) ns /\ (is_ref (ty_name t) -> exists x, argument t (s "layer") x).
Proof.
  intros ND Hn H. unfold jresolve_field in H. cbn [fst snd] in H.
  assert (D : is_ref (ty_name t) \/ ~ is_ref (ty_name t)).
  { unfold is_ref. destruct (ty_name t) as [|[]|]; cbn; try (left; tauto); right; intuition discriminate. }
  destruct D as [Rf|NR].
  - assert (H' : (let* x := arg_name t (s "layer") in
      mapM (fun n => match dget n f with None => Ok n | Some v => let* w := jreplace x (dget sizes x) v in Ok (dset n f w) end) nodes) = Ok ns).
    { unfold is_ref in Rf. cbn in Rf. destruct Rf as [E|[E|[E|[]]]]; rewrite <- E in H; exact H. }
    clear H. destruct (arg_name t (s "layer")) as [x|] eqn:Ea; [|discriminate]. cbn [rbind] in H'. apply arg_name_ok in Ea.
    split; [eapply mapM_Ok_length; exact H'|]. split; [|intros _; exists x; exact Ea]. apply mapM_Forall2' in H'.
    induction H' as [|n m nodes ns E F IH]; [constructor|]. inversion Hn as [|? ? [NDn N1] N2]; subst. constructor; [|apply IH; exact N2]. clear IH F N2 Hn.
    destruct (dget n f) as [v|] eqn:Ev.
    + destruct (jreplace x (dget sizes x) v) as [w|] eqn:Ew; [|discriminate]. cbn [rbind] in E. apply Ok_inj in E. subst m.
      split; [apply NoDup_dset; exact NDn|]. intros g u I. destruct (str_eqb g f) eqn:Eg.
      * apply str_eqb_eq in Eg. subst g. left. exists t. split; [apply in_or_app; right; left; reflexivity|].
        assert (u = w). { apply dget_nodup in I; [|apply NoDup_dset; exact NDn]. rewrite dget_dset_same in I. congruence. } subst u.
        apply dget_In in Ev. destruct (N1 f v Ev) as [(t' & I' & _)|(t' & I' & R)]; [exfalso; exact (key_not_done _ _ _ _ _ ND I')|].
        assert (t' = t) by (eapply key_once; [exact ND|exact I'|reflexivity]). subst t'. eapply jreplace_ok; eassumption.
      * assert (Eg' : g <> f) by (intros ->; rewrite str_eqb_refl in Eg; discriminate). destruct (dset_In _ _ _ _ _ I) as [X|X]; [congruence|]. destruct (N1 g u X) as [(t' & I' & R)|(t' & I' & R)].
        -- left. exists t'. split; [apply in_snoc; exact I'|exact R].
        -- destruct I' as [Y|I']; [congruence|]. right. exists t'. split; assumption.
    + apply Ok_inj in E. subst m. split; [exact NDn|]. intros g u I. destruct (N1 g u I) as [(t' & I' & R)|(t' & I' & R)].
      * left. exists t'. split; [apply in_snoc; exact I'|exact R].
      * destruct I' as [Y|I']; [|right; exists t'; split; assumption]. injection Y as -> ->. apply dget_nodup in I; [congruence|exact NDn].
  - assert (ns = nodes) as ->.
    { unfold is_ref in NR. cbn in NR. destruct (ty_name t) as [|[]|]; try (apply Ok_inj in H; symmetry; exact H); exfalso; apply NR; tauto. }
    split; [reflexivity|]. split; [|intros X; contradiction]. eapply Forall_impl; [|exact Hn]. intros n [NDn N1]. split; [exact NDn|]. intros g u I.
    destruct (N1 g u I) as [(t' & I' & R)|(t' & I' & R)].
    + left. exists t'. split; [apply in_snoc; exact I'|exact R].
    + destruct I' as [Y|I']; [|right; exists t'; split; assumption]. injection Y as -> ->. left. exists t'. split; [apply in_or_app; right; left; reflexivity|].
      apply fd_raw; assumption.
Qed.
Lemma resolve_all texts sizes : forall rest done nodes ns, NoDup (dkeys (done ++ rest)) -> Forall (row_mid texts sizes done rest) nodes ->
  jresolve sizes rest nodes = Ok ns ->
  length ns = length nodes /\ Forall (row_mid texts sizes (done ++ rest) []) ns /\ Forall (fun ft => is_ref (ty_name (snd ft)) -> exists x, argument (snd ft) (s "layer") x) rest.
Proof.
  induction rest as [|[f t] rest IH]; intros done nodes ns ND Hn H; cbn [jresolve] in H.
  - apply Ok_inj in H. subst ns. rewrite app_nil_r. repeat split; [exact Hn|constructor].
  - destruct (jresolve_field sizes (f, t) nodes) as [ms|] eqn:E; [|discriminate]. cbn [rbind] in H. destruct (resolve_step _ _ _ _ _ _ _ _ ND Hn E) as (L1 & F1 & A1).
    destruct (IH (done ++ [(f, t)]) ms ns) as (L2 & F2 & A2); [rewrite <- app_assoc; exact ND|exact F1|exact H|]. rewrite <- app_assoc in F2.
    split; [congruence|]. split; [exact F2|]. constructor; assumption.
Qed.
Lemma resolve_good texts sizes fs nodes ns : NoDup (dkeys fs) -> Forall (row_read texts fs) nodes -> jresolve sizes fs nodes = Ok ns ->
  length ns = length nodes /\ Forall (fun row => NoDup (dkeys row) /\ forall f v, In (f, v) row -> exists t, In (f, t) fs /\ found texts sizes t v) ns /\
  Forall (fun ft => is_ref (ty_name (snd ft)) -> exists x, argument (snd ft) (s "layer") x) fs.
Proof.
  intros ND Hn H. destruct (resolve_all texts sizes fs [] nodes ns ND) as (L & F & A); [|exact H|].
  - eapply Forall_impl; [|exact Hn]. intros row [N1 N2]. split; [exact N1|]. intros f v I. right. apply N2. exact I.
  - split; [exact L|]. split; [|exact A]. eapply Forall_impl; [|exact F]. intros row [N1 N2]. split; [exact N1|]. intros f v I. destruct (N2 f v I) as [X|(t & [] & _)]. exact X.
Qed.

(** ** the document *)
Lemma dget_map_fst {A} (d : dict (A * list Z)) c : dget (map (fun kt => (fst kt, fst (snd kt))) d) c = match dget d c with Some p => Some (fst p) | None => None end.
Proof. induction d as [|[k p] d IH]; [reflexivity|]. cbn [map dget fst snd]. destruct (str_eqb c k); [reflexivity|exact IH]. Qed.
Lemma dkeys_map_fst {A} (d : dict (A * list Z)) : dkeys (map (fun kt => (fst kt, fst (snd kt))) d) = dkeys d.
Proof. unfold dkeys. rewrite map_map. reflexivity. Qed.
Lemma sizes_same (ls : dict (dict jdtype * list (dict jv))) : forall ms : dict (dict jdtype * list (dict jv)), Forall2 (fun kl km => fst km = fst kl /\ length (snd (snd km)) = length (snd (snd kl))) ls ms ->
  forall x n, dget (map (fun kl => (fst kl, length (snd (snd kl)))) ls) x = Some n -> exists fs rows, dget ms x = Some (fs, rows) /\ length rows = n.
Proof.
  intros ms F. induction F as [|[k [fs rs]] [k' [fs' rs']] ls ms [E L] F IH]; intros x n H; [discriminate|]. cbn [fst snd] in *. subst k'. cbn [map dget fst snd] in *.
  destruct (str_eqb x k); [injection H as <-; exists fs', rs'; split; [reflexivity|exact L]|]. apply IH. exact H.
Qed.
Theorem decoded bs j : bytes bs -> java_decode bs = Ok j -> decoded_ok j.
Proof.
  intros Hb H. unfold java_decode in H. destruct (mu_payload 4 bs) as [[header r]|] eqn:E0; [|discriminate]. cbn [rbind] in H. destruct (payload_good _ _ _ _ Hb E0) as [_ B0].
  destruct (negb _); [discriminate|]. destruct (jread_props r) as [[props r1]|] eqn:E1; [|discriminate]. cbn [rbind] in H. destruct (props_good _ _ _ B0 E1) as [Gp B1].
  destruct (jread_schema r1) as [[sch r2]|] eqn:E2; [|discriminate]. cbn [rbind] in H. destruct (schema_good _ _ _ B1 E2) as [[NDs Gs] B2].
  destruct (jread_texts r2) as [[texts r3]|] eqn:E3; [|discriminate]. cbn [rbind] in H. destruct (texts_good _ _ _ B2 E3) as [[NDt Gt] B3].
  destruct (jread_layers texts sch r3) as [[ls r4]|] eqn:E4; [|discriminate]. cbn [rbind] in H. destruct (layers_good texts sch _ _ _ B3 E4) as [Gl _].
  cbv zeta in H. set (sizes := map (fun kl => (fst kl, length (snd (snd kl)))) ls) in *.
  match type of H with rbind ?m _ = _ => destruct m as [ms|] eqn:E5 end; [|discriminate]. cbn [rbind] in H. apply Ok_inj in H. subst j. clear E0 E1 E2 E3 E4 B0 B1 B2 B3 Hb bs header r r1 r2 r3 r4.
  assert (G : Forall2 (fun kl km => fst km = fst kl /\ length (snd (snd km)) = length (snd (snd kl))) ls ms /\ dkeys ms = dkeys sch /\
    forall k fs rows, In (k, (fs, rows)) ms -> dict_of type_read fs /\ zlen rows < 2147483648 /\ Forall (fun ft => readable_type (snd ft)) fs /\
      Forall (fun row => NoDup (dkeys row) /\ forall f v, In (f, v) row -> exists t, In (f, t) fs /\ found texts sizes t v) rows /\
      Forall (fun ft => is_ref (ty_name (snd ft)) -> exists x, argument (snd ft) (s "layer") x) fs).
  { apply mapM_Forall2' in E5. clearbody sizes. clear NDs NDt Gt Gp props. revert ms E5. induction Gl as [|[k fs] [k' [fs' ns]] sch ls (X1 & X2 & X3) Gl IH]; intros ms E5.
    - inversion E5; subst. repeat split; try constructor; contradiction.
    - inversion E5 as [|? y ? ms' Ey Em]; subst. cbn [fst snd] in *. subst k' fs'. destruct (IH (fun k0 fs0 I => Gs k0 fs0 (or_intror I)) _ Em) as (F1 & F2 & F3). clear IH.
      destruct (jresolve sizes fs ns) as [ns'|] eqn:Er; [|discriminate]. cbn [rbind] in Ey. apply Ok_inj in Ey. subst y.
      pose proof (Gs k fs (or_introl eq_refl)) as Tf. destruct X3 as (L & R1 & R2). destruct (resolve_good texts sizes fs ns ns' (proj1 Tf) R1 Er) as (L' & R3 & R4).
      split; [constructor; [cbn [fst snd]; split; [reflexivity|exact L']|exact F1]|]. split; [cbn [dkeys map fst]; f_equal; exact F2|].
      intros k0 fs0 rows0 [X|I]; [|eapply F3; exact I]. injection X as <- <- <-. split; [exact Tf|]. split; [unfold zlen in *; rewrite L'; exact L|]. split; [exact R2|]. split; assumption. }
  destruct G as (G1 & G2 & G3). clear E5 Gl Gs. set (j := mkJDoc props (map (fun kt => (fst kt, fst (snd kt))) texts) ms).
  assert (Ht : forall c u offs, dget texts c = Some (u, offs) -> exists x, u = utf16 x /\ holds_text j c x /\ forall o, In o offs -> exists k, 0 <= k <= zlen x /\ o = upos x k).
  { intros c u offs Hc. destruct (Gt c (u, offs)) as (x & Ex & Sx & Ho); [apply dget_In; exact Hc|]. cbn [fst snd] in *. exists x. split; [exact Ex|]. split; [|exact Ho].
    split; [cbn [j jd_texts]; rewrite dget_map_fst, Hc, <- Ex; reflexivity|exact Sx]. }
  assert (Hn : forall x p, sized_node sizes x p -> has_node j x p).
  { intros x p (n & Hs & Hp). destruct (sizes_same ls ms G1 x n Hs) as (fs & rows & Hx & Hl). exists fs, rows. split; [exact Hx|lia]. }
  split; cbn [j jd_props jd_texts jd_layers].
  - exact Gp.
  - split; [rewrite dkeys_map_fst; exact NDt|]. intros c u I. apply in_map_iff in I. destruct I as ([c' [u' offs]] & E & I). cbn [fst snd] in E. injection E as -> ->.
    apply dget_nodup in I; [|exact NDt]. destruct (Ht c u offs I) as (x & _ & Hx & _). exists x. exact Hx.
  - rewrite G2. exact NDs.
  - intros k fs rows I. destruct (G3 k fs rows I) as ([NDf Tf] & L & R & _ & A). split; [exact NDf|]. split; [exact L|]. intros f t If.
    rewrite Forall_forall in R, A. destruct (R (f, t) If) as (tn & key & Et & Ek). cbn [snd] in Et, Ek. destruct (Tf f t If) as [Tk Ta]. split.
    + exists tn. split; [exact Et|exact (Tk tn Et)].
    + exact (A (f, t) If).
    + intros Es. unfold jkey in Ek. rewrite Es in Ek. exists key. apply arg_name_ok. exact Ek.
    + intros Es. unfold jkey in Ek. rewrite Es in Ek. exists key. apply arg_name_ok. exact Ek.
    + exact Ta.
  - intros k fs rows row I Ir. destruct (G3 k fs rows I) as (_ & _ & _ & R & _). rewrite Forall_forall in R. destruct (R row Ir) as [ND Hv]. split; [exact ND|].
    intros f If. apply in_map_iff in If. destruct If as ([f' v] & <- & If). destruct (Hv f' v If) as (t & It & _). apply (in_map fst) in It. exact It.
  - intros k fs rows row f t v I Ir If Ev. destruct (G3 k fs rows I) as ([NDf _] & _ & _ & R & _). rewrite Forall_forall in R. destruct (R row Ir) as [ND Hv].
    apply dget_In in Ev. destruct (Hv f v Ev) as (t' & It & Hf). apply dget_nodup in It; [|exact NDf]. apply dget_nodup in If; [|exact NDf]. assert (t' = t) by congruence. subst t'.
    inversion Hf as [w NR Rw|x p E A Hp|x ps E A Ne Hp|x p q E A Le Hp]; subst.
    + inversion Rw; subst; try (exfalso; apply NR; match goal with E : ty_name t = _ |- _ => rewrite E; cbn; tauto end); try (econstructor; eassumption).
      match goal with E : dget texts _ = Some (?u, ?offs), A1 : In ?a ?offs, B1 : In ?b ?offs |- _ => destruct (Ht _ _ _ E) as (x & _ & Hx & Ho); destruct (Ho a A1) as (p & Hp & ->); destruct (Ho b B1) as (q & Hq & ->) end.
      apply jf_span; assumption.
    + apply jf_node; auto.
    + apply jf_nodes; auto. eapply Forall_impl; [|exact Hp]. apply Hn.
    + apply jf_nodespan; auto.
Qed.
