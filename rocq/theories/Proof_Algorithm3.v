(** Proofs about span_translate. *)
From Verif Require Import PyBase PyBaseFacts Model_Heap Model_Layer Model_Text Proof_Text Model_Types Model_Document Model_Algorithm Spec_Algorithm.
From Coq Require Import Sorting.Sorted Sorting.Permutation.
Local Open Scope Z_scope.

Lemma flat_two_nodup {A B} (f g : A -> B) l : NoDup l -> (forall x y, f x = f y -> x = y) -> (forall x y, g x = g y -> x = y) -> (forall x y, f x <> g y) ->
  NoDup (flat_map (fun x => [f x; g x]) l).
Proof.
  intros N Hf Hg Hd. induction N as [|x l Ni N IH]; [constructor|]. simpl.
  assert (X : forall (h : A -> B) z, (forall x y, h x = h y -> x = y) -> In (h z) (flat_map (fun x => [f x; g x]) l) -> (h z = f z \/ h z = g z) -> In z l).
  { intros h z Hh I E. apply in_flat_map in I. destruct I as (y & Iy & [I|[I|[]]]).
    - destruct E as [E|E]; [rewrite E in I; apply Hf in I; congruence|]. rewrite E in I. exfalso. exact (Hd _ _ I).
    - destruct E as [E|E]; [rewrite E in I; symmetry in I; exfalso; exact (Hd _ _ I)|]. rewrite E in I. apply Hg in I. congruence. }
  constructor; [|constructor].
  - intros [E|I]; [symmetry in E; exact (Hd _ _ E)|]. apply Ni. apply (X f); auto.
  - intros I. apply Ni. apply (X g); auto.
  - exact IH.
Qed.

Lemma text_slice_in t a b : 0 <= a <= b -> b <= zlen t -> text_slice t (Some a) (Some b) = Ok (mkSpan t a b).
Proof.
  intros H1 H2. unfold text_slice, slice_start, slice_stop, slice_norm.
  destruct (Z.ltb_spec a 0); [lia|]. destruct (Z.ltb_spec b 0); [lia|]. rewrite !Z.min_l by lia.
  destruct (Z.ltb_spec b a); [lia|]. destruct (Z.ltb_spec (zlen t) a); [lia|]. destruct (Z.ltb_spec (zlen t) b); [lia|].
  simpl. unfold new_span. destruct (Z.leb_spec a b); [reflexivity|lia].
Qed.

Lemma nodup_app {A} (a b : list A) : NoDup a -> NoDup b -> (forall x, In x a -> In x b -> False) -> NoDup (a ++ b).
Proof.
  induction 1 as [|x a Ni N IH]; intros Nb D; [exact Nb|]. simpl. constructor.
  - rewrite in_app_iff. intros [I|I]; [auto|]. apply (D x); [left; reflexivity|exact I].
  - apply IH; [exact Nb|]. intros y I J. apply (D y); [right; exact I|exact J].
Qed.

Section Translate.
Variables (h0 : heap) (M P : list nid) (src tgt rs : nid -> Z * Z) (tf tf2 ctx txt : pystr).
Hypothesis M_nodup : NoDup M.
Hypothesis P_nodup : NoDup P.
Hypothesis M_tgt : forall m, In m M -> node_span h0 m tf = Ok (tgt m).
Hypothesis M_nonempty : forall m, In m M -> fst (src m) < snd (src m).
Hypothesis M_disjoint : forall m m', In m M -> In m' M -> m <> m' -> snd (src m) <= fst (src m') \/ snd (src m') <= fst (src m).
Hypothesis apart : forall m, In m M -> In m P -> False.
Hypothesis P_ids : forall n n', In n P -> In n' P -> n_idof h0 n = n_idof h0 n' -> n = n'.
Hypothesis P_new : forall n, In n P -> dget (n_fieldsof h0 n) tf2 = None.
Definition im (q r : Z) : Prop := exists m, In m M /\ fst (src m) <= q < snd (src m) /\ r = fst (tgt m) + (q - fst (src m)).
Hypothesis P_fits : forall n u v, In n P -> fst (rs n) < snd (rs n) -> im (fst (rs n)) u -> im (snd (rs n) - 1) v -> 0 <= u <= v + 1 /\ v + 1 <= zlen txt.

Definition sev (m : nid) : st_event := ((fst (src m), 0), (0, m)).
Definition eev (m : nid) : st_event := ((snd (src m), -1), (0, m)).
Definition psev (n : nid) : st_event := ((fst (rs n), 1), (1, n)).
Definition peev (n : nid) : st_event := ((snd (rs n) - 1, 2), (1, n)).
Definition E : list st_event := flat_map (fun m => [sev m; eev m]) M ++ flat_map (fun n => [psev n; peev n]) P.
Definition L : list st_event := ssort fst lex_leb E.

Lemma E_in e : In e E <-> (exists m, In m M /\ (e = sev m \/ e = eev m)) \/ (exists n, In n P /\ (e = psev n \/ e = peev n)).
Proof.
  unfold E. rewrite in_app_iff, !in_flat_map. split; intros [(x & I & H)|(x & I & H)].
  - left. exists x. split; [exact I|]. destruct H as [H|[H|[]]]; auto.
  - right. exists x. split; [exact I|]. destruct H as [H|[H|[]]]; auto.
  - left. exists x. split; [exact I|]. simpl. destruct H; auto.
  - right. exists x. split; [exact I|]. simpl. destruct H; auto.
Qed.
Lemma E_nodup : NoDup E.
Proof.
  unfold E. apply nodup_app.
  - apply flat_two_nodup; [exact M_nodup| | |]; unfold sev, eev; intros x y X; injection X; try congruence; lia.
  - apply flat_two_nodup; [exact P_nodup| | |]; unfold psev, peev; intros x y X; injection X; try congruence; lia.
  - intros x I J. apply in_flat_map in I, J. destruct I as (m & _ & [<-|[<-|[]]]), J as (n & _ & [J|[J|[]]]); discriminate J.
Qed.
Lemma L_perm : Permutation E L.
Proof. apply ssort_perm. Qed.
Lemma L_in e : In e L <-> (exists m, In m M /\ (e = sev m \/ e = eev m)) \/ (exists n, In n P /\ (e = psev n \/ e = peev n)).
Proof. rewrite <- E_in. split; apply Permutation_in; [symmetry|]; exact L_perm. Qed.
Lemma L_nodup : NoDup L.
Proof. eapply Permutation_NoDup; [exact L_perm|exact E_nodup]. Qed.
Definition kle (a b : st_event) : Prop := fst (fst a) < fst (fst b) \/ (fst (fst a) = fst (fst b) /\ snd (fst a) <= snd (fst b)).
Lemma L_split done e todo : L = done ++ e :: todo ->
  (forall x, In x done -> kle x e) /\ (forall x, In x todo -> kle e x) /\ ~ In e done /\ ~ In e todo.
Proof.
  intros EL. assert (H : StronglySorted (fun a b : st_event => lex_leb (fst a) (fst b) = true) L) by (apply ssort_sorted; [exact lex_total|exact lex_trans]). pose proof L_nodup as N. rewrite EL in H, N.
  assert (K : forall a b : st_event, lex_leb (fst a) (fst b) = true -> kle a b) by (intros a b X; apply lex_leb_iff in X; exact X).
  apply NoDup_remove in N. destruct N as (_ & N). rewrite in_app_iff in N.
  split; [|split; [|tauto]]; clear EL N.
  - intros x I. induction done as [|y done IH]; [destruct I|]. simpl in H. inversion H as [|? ? Hs F]; subst. destruct I as [->|I]; [|auto].
    rewrite Forall_forall in F. apply K, F, in_or_app. right. left. reflexivity.
  - intros x I. induction done as [|y done IH]; simpl in H; inversion H as [|? ? Hs F]; subst; [|auto]. rewrite Forall_forall in F. apply K, F, I.
Qed.
Lemma L_where done e todo x : L = done ++ e :: todo -> In x L -> In x done \/ x = e \/ In x todo.
Proof. intros EL I. rewrite EL in I. apply in_app_or in I. destruct I as [I|[I|I]]; auto. Qed.

(** the state after the events in [done] *)
Definition open_ok (done todo : list st_event) (active : option (Z * Z)) : Prop :=
  match active with
  | Some (a, ta) => exists m, In m M /\ a = fst (src m) /\ ta = fst (tgt m) /\ In (sev m) done /\ In (eev m) todo
  | None => forall m, In m M -> In (sev m) done -> In (eev m) todo -> False
  end.
Definition offs_ok (done : list st_event) (offs : list (Z * Z)) : Prop :=
  forall n, In n P -> (In (psev n) done -> exists u, zget offs (n_idof h0 n) = Some u /\ im (fst (rs n)) u) /\
                      (zget offs (n_idof h0 n) <> None -> In (psev n) done).
Definition heap_ok (done : list st_event) (h : heap) : Prop :=
  (forall n, In n P -> In (peev n) done -> exists u v, im (fst (rs n)) u /\ im (snd (rs n) - 1) v /\
     h_node h n = mkNode (n_fieldsof h0 n ++ [(tf2, VSpan ctx txt u (v + 1))]) (n_idof h0 n) (n_collof h0 n)) /\
  (forall n, ~ (In n P /\ In (peev n) done) -> h_node h n = h_node h0 n) /\
  h_nnext h = h_nnext h0 /\ h_layer h = h_layer h0 /\ h_lnext h = h_lnext h0.
Definition fine (e : st_event) : Prop := forall n, In n P ->
  (e = psev n -> exists u, im (fst (rs n)) u) /\ (e = peev n -> fst (rs n) < snd (rs n) /\ exists v, im (snd (rs n) - 1) v).

Notation run h act offs es := (st_loop h tf tf2 ctx txt act offs es).
Lemma st_sev h act offs m todo : run h act offs (sev m :: todo) = match act with Some _ => (h, Err AssertionError) | None =>
  match node_span h m tf with Err e => (h, Err e) | Ok p => run h (Some (fst (src m), fst p)) offs todo end end.
Proof. reflexivity. Qed.
Lemma st_eev h act offs m todo : run h act offs (eev m :: todo) = run h None offs todo.
Proof. reflexivity. Qed.
Lemma st_psev h act offs n todo : run h act offs (psev n :: todo) = match act with None => (h, Err AssertionError) | Some (a, ta) =>
  run h act ((n_idof h n, fst (rs n) - a + ta) :: offs) todo end.
Proof. reflexivity. Qed.
Lemma st_peev h act offs n todo : run h act offs (peev n :: todo) = match act with None => (h, Err AssertionError) | Some (a, ta) =>
  match zget offs (n_idof h n) with
  | None => (h, Err AssertionError)
  | Some u => match text_slice txt (Some u) (Some (snd (rs n) - 1 - a + ta + 1)) with
              | Err e => (h, Err e)
              | Ok x => run (set_fields h n (dset (n_fieldsof h n) tf2 (VSpan ctx txt (sp_start x) (sp_stop x)))) act offs todo
              end
  end end.
Proof. reflexivity. Qed.
Lemma ev_dec (a b : st_event) : {a = b} + {a <> b}.
Proof. repeat decide equality. Qed.
Lemma heap_ok_id done h : heap_ok done h -> forall n, n_idof h n = n_idof h0 n.
Proof.
  intros (H1 & H2 & _) n. unfold n_idof at 1. destruct (in_dec Nat.eq_dec n P) as [I|I]; [|rewrite H2 by tauto; reflexivity].
  destruct (in_dec ev_dec (peev n) done) as [J|J]; [|rewrite H2 by tauto; reflexivity].
  destruct (H1 n I J) as (u & v & _ & _ & ->). reflexivity.
Qed.
Lemma heap_ok_other done h e : heap_ok done h -> (forall n, e <> peev n) -> heap_ok (done ++ [e]) h.
Proof.
  intros (H1 & H2 & H3) N. split; [|split; [|exact H3]].
  - intros n I J. apply in_app_or in J. destruct J as [J|[J|[]]]; [auto|]. exfalso. exact (N n J).
  - intros n X. apply H2. intros [I J]. apply X. split; [exact I|]. apply in_or_app. auto.
Qed.

Ltac kk := unfold kle, sev, eev, psev, peev in *; cbn [fst snd] in *; lia.

Lemma st_loop_ok todo : forall done h active offs, L = done ++ todo -> open_ok done todo active -> offs_ok done offs -> heap_ok done h ->
  (exists h', st_loop h tf tf2 ctx txt active offs todo = (h', Ok tt) /\ Forall fine todo /\ heap_ok L h') \/
  (exists h', st_loop h tf tf2 ctx txt active offs todo = (h', Err AssertionError) /\ Exists (fun e => ~ fine e) todo).
Proof.
  induction todo as [|e todo IH]; intros done h active offs EL Ho Hf Hh.
  { left. exists h. split; [reflexivity|]. split; [constructor|]. rewrite app_nil_r in EL. rewrite EL. exact Hh. }
  destruct (L_split _ _ _ EL) as (Bef & Aft & Ndo & Nto).
  assert (EL' : L = (done ++ [e]) ++ todo) by (rewrite <- app_assoc; exact EL).
  assert (Ie : In e L) by (rewrite EL; apply in_or_app; right; left; reflexivity).
  assert (Inc : forall x, In x done -> In x (done ++ [e])) by (intros; apply in_or_app; auto).
  assert (Dec : forall x, In x (done ++ [e]) -> x <> e -> In x done) by (intros x I N; apply in_app_or in I; destruct I as [I|[I|[]]]; congruence).
  assert (Todo : forall x, In x (e :: todo) -> x <> e -> In x todo) by (intros x [I|I] N; congruence).
  assert (Step : forall h1 active1 offs1, open_ok (done ++ [e]) todo active1 -> offs_ok (done ++ [e]) offs1 -> heap_ok (done ++ [e]) h1 -> fine e ->
    (exists h', st_loop h1 tf tf2 ctx txt active1 offs1 todo = (h', Ok tt) /\ Forall fine (e :: todo) /\ heap_ok L h') \/
    (exists h', st_loop h1 tf tf2 ctx txt active1 offs1 todo = (h', Err AssertionError) /\ Exists (fun x => ~ fine x) (e :: todo))).
  { intros h1 a1 o1 A1 A2 A3 A4. destruct (IH _ h1 a1 o1 EL' A1 A2 A3) as [(h' & E1 & E2 & E3)|(h' & E1 & E2)].
    - left. exists h'. split; [exact E1|]. split; [constructor; assumption|exact E3].
    - right. exists h'. split; [exact E1|]. apply Exists_cons_tl. exact E2. }
  assert (Cov : forall q t m, In m M -> fst (fst e) = q -> snd (fst e) = t -> 0 < t -> fst (src m) <= q < snd (src m) -> In (sev m) done /\ In (eev m) todo).
  { intros q t m Im Eq Et Pt C. split.
    - destruct (L_where _ _ _ (sev m) EL) as [I|[I|I]]; [apply L_in; left; exists m; auto|exact I| |].
      + rewrite <- I in Et. simpl in Et. lia.
      + apply Aft in I. kk.
    - destruct (L_where _ _ _ (eev m) EL) as [I|[I|I]]; [apply L_in; left; exists m; auto| | |exact I].
      + apply Bef in I. kk.
      + rewrite <- I in Et. simpl in Et. lia. }
  apply L_in in Ie. destruct Ie as [(m & Im & [-> | ->])|(n & In_ & [-> | ->])].
  - (* a mapping interval starts *)
    rewrite !st_sev.
    destruct active as [[a ta]|].
    + exfalso. destruct Ho as (m' & Im' & -> & -> & I1 & I2).
      assert (Nm : m' <> m) by (intros ->; auto). apply Bef in I1.
      assert (I3 : In (eev m') todo) by (apply Todo; [exact I2|intros X; unfold eev, sev in X; injection X; lia]).
      apply Aft in I3. pose proof (M_nonempty _ Im). pose proof (M_nonempty _ Im'). pose proof (M_disjoint _ _ Im Im'). kk.
    + destruct Hh as (Hh1 & Hh2 & Hh3).
      assert (Nh : node_span h m tf = Ok (tgt m)).
      { rewrite <- (M_tgt m Im). unfold node_span, n_fieldsof. rewrite Hh2; [reflexivity|]. intros [X _]. exact (apart m Im X). }
      rewrite Nh. apply Step.
      * exists m. split; [exact Im|]. split; [reflexivity|]. split; [reflexivity|]. split; [apply in_or_app; right; left; reflexivity|].
        destruct (L_where _ _ _ (eev m) EL) as [I|[I|I]]; [apply L_in; left; exists m; auto| |discriminate I|exact I].
        apply Bef in I. pose proof (M_nonempty _ Im). kk.
      * intros n In_. destruct (Hf n In_) as (F1 & F2). split; [|auto]. intros I. apply F1, Dec; [exact I|discriminate].
      * split; [|split; [|exact Hh3]].
        -- intros n In_ I. apply (Hh1 n In_). apply Dec; [exact I|discriminate].
        -- intros n N. apply Hh2. intros [X Y]. apply N. auto.
      * intros n In_. split; discriminate.
  - (* a mapping interval stops *)
    rewrite !st_eev.
    destruct Hh as (Hh1 & Hh2 & Hh3). apply Step.
    * intros m' Im' I1 I2. assert (Nm : m' <> m) by (intros ->; auto).
      apply Dec in I1; [|unfold sev, eev; congruence]. apply Bef in I1. apply Aft in I2.
      pose proof (M_nonempty _ Im). pose proof (M_nonempty _ Im'). pose proof (M_disjoint _ _ Im Im'). kk.
    * intros n In_. destruct (Hf n In_) as (F1 & F2). split; [|auto]. intros I. apply F1, Dec; [exact I|discriminate].
    * split; [|split; [|exact Hh3]].
      -- intros n In_ I. apply (Hh1 n In_). apply Dec; [exact I|discriminate].
      -- intros n N. apply Hh2. intros [X Y]. apply N. auto.
    * intros n In_. split; discriminate.
  - (* first character of a node *)
    rewrite !st_psev.
    destruct active as [[a ta]|].
    + destruct Ho as (m & Im & -> & -> & I1 & I2). apply Todo in I2; [|discriminate].
      pose proof (Bef _ I1) as B1. pose proof (Aft _ I2) as A2. assert (C : fst (src m) <= fst (rs n) < snd (src m)) by kk.
      assert (Iu : im (fst (rs n)) (fst (rs n) - fst (src m) + fst (tgt m))) by (exists m; split; [exact Im|]; split; [exact C|lia]).
      rewrite (heap_ok_id _ _ Hh). apply Step.
      * exists m. repeat split; auto.
      * intros n' In'. destruct (Hf n' In') as (F1 & F2). cbn [zget].
        destruct (Z.eqb_spec (n_idof h0 n') (n_idof h0 n)) as [Eq|Nq].
        -- apply P_ids in Eq; [|exact In'|exact In_]. subst n'. split; [intros _; eexists; split; [reflexivity|exact Iu]|].
           intros _. apply in_or_app. right. left. reflexivity.
        -- split; [|auto]. intros I. apply F1, Dec; [exact I|]. intros X. apply Nq. unfold psev in X. injection X. intros; congruence.
      * apply heap_ok_other; [exact Hh|discriminate].
      * intros n' In'. split; [|discriminate]. intros X. unfold psev in X. injection X. intros -> _. eauto.
    + right. exists h. split; [reflexivity|]. apply Exists_cons_hd. intros F. destruct (F n In_) as (F1 & _). destruct (F1 eq_refl) as (u & m & Im & C & _).
      destruct (Cov (fst (rs n)) 1 m Im eq_refl eq_refl) as (I1 & I2); [lia|exact C|]. apply (Ho m Im I1). right. exact I2.
  - (* last character of a node *)
    rewrite !st_peev.
    destruct active as [[a ta]|].
    + destruct Ho as (m & Im & -> & -> & I1 & I2). apply Todo in I2; [|discriminate].
      pose proof (Bef _ I1) as B1. pose proof (Aft _ I2) as A2. assert (C : fst (src m) <= snd (rs n) - 1 < snd (src m)) by kk.
      assert (Iv : im (snd (rs n) - 1) (snd (rs n) - 1 - fst (src m) + fst (tgt m))) by (exists m; split; [exact Im|]; split; [exact C|lia]).
      rewrite (heap_ok_id _ _ Hh). destruct (Hf n In_) as (F1 & F2).
      destruct (zget offs (n_idof h0 n)) as [u|] eqn:Ez.
      * assert (Ips : In (psev n) done) by (apply F2; discriminate). destruct (F1 Ips) as (u' & Eu & Iu). injection Eu as <-.
        pose proof (Bef _ Ips) as B2. assert (Lt : fst (rs n) < snd (rs n)) by kk.
        set (v := snd (rs n) - 1 - fst (src m) + fst (tgt m)) in *. destruct (P_fits n u v In_ Lt Iu Iv) as (X1 & X2).
        rewrite text_slice_in by lia. cbn [sp_start sp_stop].
        assert (Old : h_node h n = h_node h0 n) by (apply Hh; intros [_ Y]; exact (Ndo Y)).
        assert (Fo : n_fieldsof h n = n_fieldsof h0 n) by (unfold n_fieldsof; rewrite Old; reflexivity). rewrite Fo.
        rewrite (dset_absent _ _ _ (P_new n In_)). apply Step.
        -- exists m. repeat split; auto.
        -- intros n' In'. destruct (Hf n' In') as (G1 & G2). split; [|auto]. intros I. apply G1, Dec; [exact I|discriminate].
        -- destruct Hh as (Hh1 & Hh2 & Hh3). split; [|split; [|exact Hh3]].
           ++ intros n' In' I. unfold set_fields, set_node, upd. cbn [h_node]. destruct (Nat.eqb_spec n' n) as [->|Nn].
              ** exists u, v. split; [exact Iu|]. split; [exact Iv|]. rewrite Old. reflexivity.
              ** apply (Hh1 n' In'). apply Dec; [exact I|]. unfold peev. congruence.
           ++ intros n' N. unfold set_fields, set_node, upd. cbn [h_node]. destruct (Nat.eqb_spec n' n) as [->|Nn].
              ** exfalso. apply N. split; [exact In_|]. apply in_or_app. right. left. reflexivity.
              ** apply Hh2. intros [X Y]. apply N. auto.
        -- intros n' In'. split; [discriminate|]. intros X. unfold peev in X. injection X. intros -> _. split; [exact Lt|]. eauto.
      * right. exists h. split; [reflexivity|]. apply Exists_cons_hd. intros F. destruct (F n In_) as (_ & F3). destruct (F3 eq_refl) as (Lt & _).
        destruct (L_where _ _ _ (psev n) EL) as [I|[I|I]]; [apply L_in; right; exists n; auto| |discriminate I|].
        -- destruct (F1 I) as (u & Eu & _). discriminate Eu.
        -- apply Aft in I. kk.
    + right. exists h. split; [reflexivity|]. apply Exists_cons_hd. intros F. destruct (F n In_) as (_ & F1). destruct (F1 eq_refl) as (_ & u & m & Im & C & _).
      destruct (Cov (snd (rs n) - 1) 2 m Im eq_refl eq_refl) as (I1 & I2); [lia|exact C|]. apply (Ho m Im I1). right. exact I2.
Qed.
Lemma st_run : 
  (exists h', st_loop h0 tf tf2 ctx txt None [] L = (h', Ok tt) /\ Forall fine L /\ heap_ok L h') \/
  (exists h', st_loop h0 tf tf2 ctx txt None [] L = (h', Err AssertionError) /\ Exists (fun e => ~ fine e) L).
Proof.
  apply (st_loop_ok L []); [reflexivity|intros m _ []| |].
  - intros n _. split; [intros []|]. simpl. congruence.
  - split; [intros n _ []|]. split; [intros; reflexivity|]. auto.
Qed.
End Translate.

Lemma span_at_iff h n f p : span_at h n f p <-> node_span h n f = Ok p.
Proof.
  unfold span_at, node_span, dgetE. destruct (dget (n_fieldsof h n) f) as [v|]; cbn [rbind].
  - destruct v; split; try (intros (tn & tt' & X); discriminate X); try discriminate.
    + intros (tn & tt' & X). injection X. intros -> -> -> ->. destruct p. reflexivity.
    + intros X. injection X as <-. eexists _, _. reflexivity.
  - split; [intros (tn & tt' & X); discriminate X|discriminate].
Qed.
Definition the_span (h : heap) (f : pystr) (n : nid) : Z * Z := match node_span h n f with Ok p => p | Err _ => (0, 0) end.
Lemma the_span_ok h f n p : span_at h n f p -> node_span h n f = Ok p /\ the_span h f n = p.
Proof. rewrite span_at_iff. intros H. split; [exact H|]. unfold the_span. rewrite H. reflexivity. Qed.
Lemma map_events_ok h sf ms : (forall m, In m ms -> exists p, span_at h m sf p) ->
  map_events h sf (map Some ms) = Ok (flat_map (fun m => [sev (the_span h sf) m; eev (the_span h sf) m]) ms).
Proof.
  induction ms as [|m ms IH]; intros H; [reflexivity|]. cbn [map map_events flat_map].
  destruct (H m (or_introl eq_refl)) as (p & Hp). destruct (the_span_ok _ _ _ _ Hp) as (E1 & E2). rewrite E1. cbn [rbind].
  rewrite IH by (intros; apply H; right; assumption). cbn [rbind]. unfold sev, eev. rewrite E2. reflexivity.
Qed.
Definition unmappedb (h : heap) (f : pystr) (n : nid) : bool := negb (dmem (n_fieldsof h n) f).
Lemma unmappedb_iff h f n : unmappedb h f n = true <-> unmapped h f n.
Proof. unfold unmappedb, unmapped, dmem. destruct (dget _ f); simpl; split; congruence. Qed.
Lemma remap_events_ok h sf2 tf2 ns : (forall n, In n ns -> unmapped h tf2 n -> exists p, span_at h n sf2 p) ->
  remap_events h sf2 tf2 (map Some ns) = Ok (flat_map (fun n => [psev (the_span h sf2) n; peev (the_span h sf2) n]) (filter (unmappedb h tf2) ns)).
Proof.
  induction ns as [|n ns IH]; intros H; [reflexivity|]. cbn [map remap_events filter]. fold (unmappedb h tf2 n).
  destruct (unmappedb h tf2 n) eqn:U; [|apply IH; intros; apply H; [right; assumption|assumption]].
  destruct (H n (or_introl eq_refl)) as (p & Hp); [apply unmappedb_iff; exact U|]. destruct (the_span_ok _ _ _ _ Hp) as (E1 & E2). rewrite E1. cbn [rbind].
  rewrite IH by (intros; apply H; [right; assumption|assumption]). cbn [rbind flat_map app]. unfold psev, peev. rewrite E2. reflexivity.
Qed.
Lemma setup_ok h d mapping tf sf remap sf2 tf2 ml rl ctx txt : translate_ready h d mapping tf sf remap sf2 tf2 ml rl ctx txt ->
  st_setup h d mapping tf sf remap sf2 tf2 = Ok (ml, rl, ctx, txt).
Proof.
  intros (H1 & H2 & (t & H3 & H4 & H5) & (t1 & H6 & H7) & (t2 & H8 & H9) & (t3 & H10 & H11) & H12).
  unfold st_setup, span_field, opt_name, dgetE. rewrite H1. cbn [rbind]. rewrite H3. cbn [rbind]. rewrite H4. cbn [tname_eqb rbind]. rewrite H6. cbn [rbind].
  rewrite H7. cbn [tname_eqb rbind]. rewrite H2. cbn [rbind]. rewrite H8. cbn [rbind]. rewrite H9. cbn [tname_eqb rbind]. rewrite H10. cbn [rbind]. rewrite H11.
  cbn [tname_eqb rbind]. rewrite H5. cbn [rbind]. rewrite H12. reflexivity.
Qed.
Lemma nodup_map_inj {A B} (f : A -> B) l x y : NoDup (map f l) -> In x l -> In y l -> f x = f y -> x = y.
Proof.
  induction l as [|z l IH]; simpl; intros N; [intros []|]. inversion N as [|? ? Ni N']; subst. intros [->|I] [->|J] E; auto.
  - exfalso. apply Ni. rewrite E. apply in_map. exact J.
  - exfalso. apply Ni. rewrite <- E. apply in_map. exact I.
Qed.
Section Top.
Variables (h : heap) (d : doc) (mapping tf sf remap sf2 tf2 : pystr) (ml rl : lid) (ctx txt : pystr) (ms ns : list nid).
Hypothesis ready : translate_ready h d mapping tf sf remap sf2 tf2 ml rl ctx txt.
Hypothesis nodes : translate_nodes h ml rl tf sf sf2 tf2 ms ns.
Hypothesis fits : forall n, In n ns -> unmapped h tf2 n -> image_fits h ms tf sf sf2 txt n.
Let src := the_span h sf. Let tgt := the_span h tf. Let rs := the_span h sf2.
Let P := filter (unmappedb h tf2) ns.
Lemma im_image q r : im ms src tgt q r <-> image h ms tf sf q r.
Proof.
  destruct nodes as (_ & _ & (_ & G & _) & _). split.
  - intros (m & I & C & ->). destruct (G m I) as (p & t & Hp & Ht & _). exists m, p, t. destruct (the_span_ok _ _ _ _ Hp) as (_ & E1).
    destruct (the_span_ok _ _ _ _ Ht) as (_ & E2). unfold src, tgt in *. rewrite E1, E2 in *. auto.
  - intros (m & p & t & I & Hp & Ht & C & ->). exists m. destruct (the_span_ok _ _ _ _ Hp) as (_ & E1).
    destruct (the_span_ok _ _ _ _ Ht) as (_ & E2). unfold src, tgt. rewrite E1, E2. auto.
Qed.
Lemma run_eq : span_translate h d mapping tf sf remap sf2 tf2 = st_loop h tf tf2 ctx txt None [] (L ms P src rs).
Proof.
  destruct nodes as (N1 & N2 & (_ & G & _) & _ & _ & N3). unfold span_translate. rewrite (setup_ok _ _ _ _ _ _ _ _ _ _ _ _ ready). cbn [rbind].
  rewrite N1, N2. rewrite map_events_ok by (intros m I; destruct (G m I) as (p & _ & Hp & _); eauto). cbn [rbind].
  rewrite remap_events_ok by exact N3. reflexivity.
Qed.
Lemma P_in n : In n P <-> In n ns /\ unmapped h tf2 n.
Proof. unfold P. rewrite filter_In, unmappedb_iff. reflexivity. Qed.
Lemma top_run :
  (exists h', span_translate h d mapping tf sf remap sf2 tf2 = (h', Ok tt) /\ Forall (fine ms P src tgt rs) (L ms P src rs) /\ heap_ok h ms P src tgt rs tf2 ctx txt (L ms P src rs) h') \/
  (exists h', span_translate h d mapping tf sf remap sf2 tf2 = (h', Err AssertionError) /\ Exists (fun e => ~ fine ms P src tgt rs e) (L ms P src rs)).
Proof.
  rewrite run_eq. destruct nodes as (N1 & N2 & (G1 & G2 & G3) & Dis & Ids & N3). apply st_run.
  - exact G1.
  - apply NoDup_filter. eapply NoDup_map_inv; exact Ids.
  - intros m I. destruct (G2 m I) as (p & t & _ & Ht & _). destruct (the_span_ok _ _ _ _ Ht) as (E1 & E2). unfold tgt. rewrite E2. exact E1.
  - intros m I. destruct (G2 m I) as (p & t & Hp & _ & Lt). destruct (the_span_ok _ _ _ _ Hp) as (_ & E2). unfold src. rewrite E2. exact Lt.
  - intros m m' I I' Ne. destruct (G2 m I) as (p & _ & Hp & _). destruct (G2 m' I') as (p' & _ & Hp' & _).
    destruct (the_span_ok _ _ _ _ Hp) as (_ & E2). destruct (the_span_ok _ _ _ _ Hp') as (_ & E2'). unfold src. rewrite E2, E2'. exact (G3 m m' p p' I I' Ne Hp Hp').
  - intros m I J. apply P_in in J. exact (Dis m I (proj1 J)).
  - intros n n' I J. apply P_in in I, J. apply (nodup_map_inj (n_idof h) ns); tauto.
  - intros n I. apply P_in in I. apply I.
  - intros n u v I Lt Iu Iv. apply P_in in I. destruct I as (I & U). destruct (N3 n I U) as ([a b] & Hp). destruct (the_span_ok _ _ _ _ Hp) as (_ & E2).
    unfold rs in *. rewrite E2 in *. apply im_image in Iu, Iv. exact (fits n I U a b u v Hp Lt Iu Iv).
Qed.
Lemma translate_maps : (forall n, In n ns -> unmapped h tf2 n -> mapped_ends h ms tf sf sf2 n) ->
  exists h', span_translate h d mapping tf sf remap sf2 tf2 = (h', Ok tt) /\ translated h h' ms ns tf sf sf2 tf2 ctx txt.
Proof.
  intros A. destruct top_run as [(h' & E & _ & H)|(h' & E & X)].
  - exists h'. split; [exact E|]. destruct H as (H1 & H2 & H3). split; [|split; [|exact H3]].
    + intros n I U. destruct (A n I U) as (a & b & _ & _ & Hp & _). destruct (the_span_ok _ _ _ _ Hp) as (_ & E2).
      assert (Ip : In n P) by (apply P_in; auto).
      destruct (H1 n Ip) as (u & v & Iu & Iv & Eh); [apply L_in; right; exists n; auto|].
      exists a, b, u, v. unfold rs in Iu, Iv. rewrite E2 in Iu, Iv. split; [exact Hp|]. split; [apply im_image; exact Iu|]. split; [apply im_image; exact Iv|exact Eh].
    + intros n N. apply H2. intros [X _]. apply N. apply P_in. exact X.
  - exfalso. apply Exists_exists in X. destruct X as (e & _ & X). apply X. intros n I. apply P_in in I. destruct I as (I & U).
    destruct (A n I U) as (a & b & u & v & Hp & Lt & Iu & Iv). destruct (the_span_ok _ _ _ _ Hp) as (_ & E2). unfold rs. rewrite E2. cbn [fst snd].
    apply im_image in Iu, Iv. split; [intros _; eauto|]. intros _. split; [exact Lt|eauto].
Qed.
Lemma translate_raises n : In n ns -> unmapped h tf2 n -> ~ mapped_ends h ms tf sf sf2 n ->
  exists h', span_translate h d mapping tf sf remap sf2 tf2 = (h', Err AssertionError).
Proof.
  intros I U N. destruct top_run as [(h' & E & F & _)|(h' & E & X)]; [|eauto].
  exfalso. apply N. destruct nodes as (_ & _ & _ & _ & _ & N3). destruct (N3 n I U) as ([a b] & Hp). destruct (the_span_ok _ _ _ _ Hp) as (_ & E2).
  assert (Ip : In n P) by (apply P_in; auto). rewrite Forall_forall in F.
  destruct (F (psev rs n)) with (n := n) as (F1 & _); [apply L_in; right; exists n; auto|exact Ip|].
  destruct (F (peev rs n)) with (n := n) as (_ & F2); [apply L_in; right; exists n; auto|exact Ip|].
  destruct (F1 eq_refl) as (u & Iu). destruct (F2 eq_refl) as (Lt & v & Iv). unfold rs in *. rewrite E2 in *. cbn [fst snd] in *.
  exists a, b, u, v. apply im_image in Iu, Iv. auto.
Qed.
End Top.

(** nothing else is touched, whatever the outcome *)
Lemma only_refl S h : only S h h.
Proof. repeat split; auto. Qed.
Lemma st_loop_only (S : nid -> Prop) tf tf2 ctx txt es : (forall e, In e es -> fst (snd e) <> 0 -> S (snd (snd e))) ->
  forall h active offs, only S h (fst (st_loop h tf tf2 ctx txt active offs es)).
Proof.
  induction es as [|[[pos ty] [so n]] es IH]; intros H h active offs; [apply only_refl|].
  assert (IH' : forall h active offs, only S h (fst (st_loop h tf tf2 ctx txt active offs es))) by (apply IH; intros; apply H; [right; assumption|assumption]).
  cbn [st_loop]. destruct (Z.eqb_spec so 0) as [->|Nz].
  - destruct (ty =? -1); [apply IH'|]. destruct active; [apply only_refl|]. destruct (node_span h n tf); [apply IH'|apply only_refl].
  - destruct active as [[a ta]|]; [|apply only_refl]. destruct (ty =? 1); [apply IH'|]. destruct (zget offs (n_idof h n)); [|apply only_refl].
    destruct (text_slice _ _ _) as [x|]; [|apply only_refl].
    match goal with |- only S h (fst (st_loop ?h1 _ _ _ _ _ _ _)) => specialize (IH' h1 (Some (a, ta)) offs); destruct IH' as (I1 & I2 & I3 & I4 & I5) end.
    assert (Sn : S n) by (apply (H ((pos, ty), (so, n))); [left; reflexivity|exact Nz]).
    split; [|split; [|exact (conj I3 (conj I4 I5))]].
    + intros k N. rewrite I1 by exact N. unfold set_fields, set_node, upd. cbn [h_node]. destruct (Nat.eqb_spec k n) as [->|_]; [tauto|reflexivity].
    + intros k. destruct (I2 k) as (J1 & J2). rewrite J1, J2. unfold n_idof, n_collof, set_fields, set_node, upd. cbn [h_node]. destruct (Nat.eqb_spec k n) as [->|_]; split; reflexivity.
Qed.
Lemma remap_events_in h sf2 tf2 ns : forall es, remap_events h sf2 tf2 ns = Ok es -> forall e, In e es -> In (Some (snd (snd e))) ns /\ unmapped h tf2 (snd (snd e)).
Proof.
  induction ns as [|[n|] ns IH]; cbn [remap_events]; intros es E e I; [injection E as <-; destruct I| |discriminate E].
  destruct (negb (dmem (n_fieldsof h n) tf2)) eqn:U.
  - destruct (node_span h n sf2) as [p|]; cbn [rbind] in E; [|discriminate E]. destruct (remap_events h sf2 tf2 ns) as [q|]; cbn [rbind] in E; [|discriminate E].
    injection E as <-. assert (Un : unmapped h tf2 n) by (apply unmappedb_iff; exact U).
    destruct I as [<-|[<-|I]]; [cbn [snd]; split; [left; reflexivity|exact Un]..|]. destruct (IH q eq_refl e I). split; [right|]; assumption.
  - destruct (IH es E e I). split; [right|]; assumption.
Qed.
Lemma map_events_src h sf ns : forall es, map_events h sf ns = Ok es -> forall e, In e es -> fst (snd e) = 0.
Proof.
  induction ns as [|[n|] ns IH]; cbn [map_events]; intros es E e I; [injection E as <-; destruct I| |discriminate E].
  destruct (node_span h n sf) as [p|]; cbn [rbind] in E; [|discriminate E]. destruct (map_events h sf ns) as [q|]; cbn [rbind] in E; [|discriminate E].
  injection E as <-. destruct I as [<-|[<-|I]]; [reflexivity..|]. exact (IH q eq_refl e I).
Qed.
Lemma translate_only h d mapping tf sf remap sf2 tf2 h' r : span_translate h d mapping tf sf remap sf2 tf2 = (h', r) ->
  only (fun n => unmapped h tf2 n /\ exists rl, dget (d_layers d) remap = Some rl /\ In (Some n) (layer_iter h rl)) h h'.
Proof.
  unfold span_translate. destruct (st_setup h d mapping tf sf remap sf2 tf2) as [[[[ml rl] c] x]|] eqn:Es; cbn [rbind].
  2: { intros X. injection X as <- _. apply only_refl. }
  destruct (map_events h sf (layer_iter h ml)) as [a|] eqn:Em; cbn [rbind]. 2: { intros X. injection X as <- _. apply only_refl. }
  destruct (remap_events h sf2 tf2 (layer_iter h rl)) as [b|] eqn:Er; cbn [rbind]. 2: { intros X. injection X as <- _. apply only_refl. }
  intros X. assert (Erl : dget (d_layers d) remap = Some rl).
  { revert Es. unfold st_setup. unfold dgetE at 1. destruct (dget (d_layers d) mapping); cbn [rbind]; [|discriminate].
    destruct (span_field h _ tf); cbn [rbind]; [|discriminate]. destruct (span_field h _ sf); cbn [rbind]; [|discriminate].
    unfold dgetE at 1. destruct (dget (d_layers d) remap); cbn [rbind]; [|discriminate].
    destruct (span_field h _ sf2); cbn [rbind]; [|discriminate]. destruct (span_field h _ tf2); cbn [rbind]; [|discriminate].
    destruct (opt_name _ _); cbn [rbind]; [|discriminate]. destruct (dgetE _ _); cbn [rbind]; [|discriminate]. intros E. injection E. congruence. }
  change h' with (fst (h', r)). rewrite <- X. apply st_loop_only. intros e I Nz.
  assert (I' : In e (a ++ b)) by (eapply Permutation_in; [symmetry; apply (@ssort_perm st_event (Z * Z) fst lex_leb)|exact I]).
  apply in_app_or in I'. destruct I' as [I'|I']; [exfalso; apply Nz; exact (map_events_src _ _ _ _ Em e I')|].
  destruct (remap_events_in _ _ _ _ _ Er e I') as (J1 & J2). split; [exact J2|eauto].
Qed.

(** overlapping mapping intervals are refused *)
Definition is_start (e : st_event) : bool := (fst (snd e) =? 0) && negb (snd (fst e) =? -1).
Definition is_stop (e : st_event) : bool := (fst (snd e) =? 0) && (snd (fst e) =? -1).
Lemma st_balance tf tf2 ctx txt b h' a : forall h active offs, st_loop h tf tf2 ctx txt active offs (a ++ b) = (h', Ok tt) ->
  (length (filter is_start a) <= length (filter is_stop a) + match active with None => 1 | Some _ => 0 end)%nat.
Proof.
  induction a as [|[[pos ty] [so n]] a IH]; intros h active offs E0; [simpl; lia|]. cbn [app st_loop] in E0. cbn [filter]. unfold is_start at 1, is_stop at 1. cbn [fst snd].
  destruct (so =? 0); cbn [andb].
  - destruct (ty =? -1); cbn [negb].
    + apply IH in E0. cbn [length]. destruct active; lia.
    + destruct active; [discriminate E0|]. destruct (node_span h n tf); [|discriminate E0]. apply IH in E0. cbn [length]. lia.
  - destruct active as [[x y]|]; [|discriminate E0]. destruct (ty =? 1); [apply IH in E0; exact E0|].
    destruct (zget offs (n_idof h n)); [|discriminate E0]. destruct (text_slice _ _ _); [|discriminate E0]. apply IH in E0. exact E0.
Qed.
Lemma nodup_map_in {A B} (f : A -> B) l : (forall x y, In x l -> In y l -> f x = f y -> x = y) -> NoDup l -> NoDup (map f l).
Proof.
  intros H N. induction N as [|x l Ni N IH]; [constructor|]. simpl. constructor.
  - intros I. apply in_map_iff in I. destruct I as (y & E0 & I). apply Ni. rewrite <- (H y x); [exact I|right; exact I|left; reflexivity|exact E0].
  - apply IH. intros; apply H; [right|right|]; assumption.
Qed.
Section Overlap.
Variables (M P : list nid) (src rs : nid -> Z * Z).
Hypothesis M_nodup : NoDup M.
Hypothesis P_nodup : NoDup P.
Hypothesis M_nonempty : forall m, In m M -> fst (src m) < snd (src m).
Lemma two_open h tf tf2 ctx txt h' done todo x y : In x M -> In y M -> x <> y -> L M P src rs = done ++ sev src y :: todo -> In (sev src x) done ->
  fst (src y) < snd (src x) -> st_loop h tf tf2 ctx txt None [] (L M P src rs) = (h', Ok tt) -> False.
Proof.
  intros Ix Iy Nxy EL Id Lt E0. destruct (L_split M P src rs M_nodup P_nodup _ _ _ EL) as (Bef & Aft & Ndo & Nto).
  assert (EL' : L M P src rs = (done ++ [sev src y]) ++ todo) by (rewrite <- app_assoc; exact EL).
  rewrite EL' in E0. apply st_balance in E0. set (pre := done ++ [sev src y]) in *.
  assert (Mem : forall e, In e pre -> In e done \/ e = sev src y) by (intros e I; apply in_app_or in I; destruct I as [I|[I|[]]]; auto).
  assert (Key : forall e, In e pre -> kle e (sev src y)) by (intros e I; destruct (Mem e I) as [J| ->]; [apply Bef; exact J|right; split; [reflexivity|apply Z.le_refl]]).
  assert (Npre : NoDup pre).
  { pose proof (L_nodup M P src rs M_nodup P_nodup) as N. rewrite EL' in N. clear - N. induction pre as [|z l IH]; [constructor|]. simpl in N. inversion N as [|? ? N1 N2]; subst.
    constructor; [|auto]. rewrite in_app_iff in N1. tauto. }
  assert (Stops : forall e, In e (filter is_stop pre) -> exists m, In m M /\ e = eev src m /\ In (eev src m) pre).
  { intros e I. apply filter_In in I. destruct I as (I & S1). assert (Ie : In e (L M P src rs)) by (rewrite EL'; apply in_or_app; auto).
    apply L_in in Ie. destruct Ie as [(m & Im & [-> | ->])|(n & In_ & [-> | ->])]; try discriminate S1. eauto. }
  assert (Inc : incl (x :: y :: map (fun e => snd (snd e)) (filter is_stop pre)) (map (fun e => snd (snd e)) (filter is_start pre))).
  { assert (St : forall m, In (sev src m) pre -> In m (map (fun e : st_event => snd (snd e)) (filter is_start pre))).
    { intros m I. apply in_map_iff. exists (sev src m). split; [reflexivity|]. apply filter_In. split; [exact I|reflexivity]. }
    intros m [<-|[<-|I]]; [apply St, in_or_app; auto|apply St, in_or_app; right; left; reflexivity|].
    apply in_map_iff in I. destruct I as (e & <- & I). destruct (Stops e I) as (m & Im & -> & Ip). cbn [snd eev]. apply St.
    destruct (L_where M P src rs _ _ _ (sev src m) EL) as [J|[J|J]]; [apply L_in; left; exists m; auto|apply in_or_app; auto|rewrite J; apply in_or_app; right; left; reflexivity|].
    exfalso. apply Aft in J. apply Key in Ip. pose proof (M_nonempty m Im). unfold kle, sev, eev in *. cbn [fst snd] in *. lia. }
  apply NoDup_incl_length in Inc; [cbn [length] in Inc; rewrite !map_length in Inc; cbv iota in E0; unfold st_event, nid in *; lia|].
  assert (Nst : forall m, In m M -> fst (src y) < snd (src m) -> ~ In m (map (fun e : st_event => snd (snd e)) (filter is_stop pre))).
  { intros m Im Lm I. apply in_map_iff in I. destruct I as (e & E1 & I). destruct (Stops e I) as (m' & Im' & -> & Ip). cbn [snd eev] in E1. subst m'.
    apply Key in Ip. unfold kle, sev, eev in Ip. cbn [fst snd] in Ip. lia. }
  constructor; [intros [E1|I]; [congruence|exact (Nst x Ix Lt I)]|]. constructor; [apply Nst; [exact Iy|apply M_nonempty; exact Iy]|].
  apply nodup_map_in; [|apply NoDup_filter; exact Npre]. intros a b Ia Ib. destruct (Stops a Ia) as (m & _ & -> & _). destruct (Stops b Ib) as (m' & _ & -> & _). cbn [snd eev]. congruence.
Qed.
Lemma overlap_refused h tf tf2 ctx txt h' x y : In x M -> In y M -> x <> y -> fst (src x) < snd (src y) -> fst (src y) < snd (src x) ->
  st_loop h tf tf2 ctx txt None [] (L M P src rs) = (h', Ok tt) -> False.
Proof.
  intros Ix Iy N L1 L2 E0. assert (I : In (sev src y) (L M P src rs)) by (apply L_in; left; exists y; auto).
  apply in_split in I. destruct I as (a & b & EL). assert (J : In (sev src x) (L M P src rs)) by (apply L_in; left; exists x; auto).
  destruct (L_where M P src rs _ _ _ _ EL J) as [K|[K|K]].
  - exact (two_open h tf tf2 ctx txt h' a b x y Ix Iy N EL K L2 E0).
  - apply N. unfold sev in K. congruence.
  - apply in_split in K. destruct K as (b1 & b2 & ->).
    apply (two_open h tf tf2 ctx txt h' (a ++ sev src y :: b1) b2 y x Iy Ix); auto.
    + rewrite <- app_assoc. exact EL.
    + apply in_or_app. right. left. reflexivity.
Qed.
End Overlap.
Lemma translate_overlap h d mapping tf sf remap sf2 tf2 ml rl ctx txt ms ns m m' p p' :
  translate_ready h d mapping tf sf remap sf2 tf2 ml rl ctx txt -> layer_iter h ml = map Some ms -> layer_iter h rl = map Some ns ->
  NoDup ms -> NoDup ns -> (forall x, In x ms -> exists q, span_at h x sf q /\ fst q < snd q) -> (forall n, In n ns -> unmapped h tf2 n -> exists q, span_at h n sf2 q) ->
  In m ms -> In m' ms -> m <> m' -> span_at h m sf p -> span_at h m' sf p' -> fst p < snd p' -> fst p' < snd p ->
  snd (span_translate h d mapping tf sf remap sf2 tf2) <> Ok tt.
Proof.
  intros R I1 I2 N1 N2 Hm Hn Im Im' Ne Hp Hp' L1 L2. unfold span_translate. rewrite (setup_ok _ _ _ _ _ _ _ _ _ _ _ _ R). cbn [rbind]. rewrite I1, I2.
  rewrite map_events_ok by (intros x Ix; destruct (Hm x Ix) as (q & Q & _); eauto). cbn [rbind]. rewrite remap_events_ok by exact Hn. cbn [rbind].
  intros X. set (P := filter (unmappedb h tf2) ns) in *.
  destruct (st_loop h tf tf2 ctx txt None [] (L ms P (the_span h sf) (the_span h sf2))) as [h' r] eqn:E0.
  apply (overlap_refused ms P (the_span h sf) (the_span h sf2)) with (h := h) (tf := tf) (tf2 := tf2) (ctx := ctx) (txt := txt) (h' := h') (x := m) (y := m'); auto.
  - apply NoDup_filter. exact N2.
  - intros x Ix. destruct (Hm x Ix) as (q & Q & Lq). destruct (the_span_ok _ _ _ _ Q) as (_ & ->). exact Lq.
  - destruct (the_span_ok _ _ _ _ Hp) as (_ & ->). destruct (the_span_ok _ _ _ _ Hp') as (_ & ->). exact L1.
  - destruct (the_span_ok _ _ _ _ Hp) as (_ & ->). destruct (the_span_ok _ _ _ _ Hp') as (_ & ->). exact L2.
  - rewrite E0. unfold L, E in E0. rewrite E0 in X. simpl in X. rewrite X. reflexivity.
Qed.
