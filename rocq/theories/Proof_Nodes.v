(** Proofs about node lists. *)
From Verif Require Import PyBase PyBaseFacts Model_Heap Model_Layer Model_Text Model_Types Model_Query Model_Nodes Spec_Text Spec_Nodes.
Local Open Scope Z_scope.

Lemma tname_eqb_eq a b : tname_eqb a b = true <-> a = b.
Proof. split; [|intros <-]; destruct a; try destruct b; simpl; congruence. Qed.
Lemma numeric_iff t : is_numeric t = true <-> number_type t.
Proof. unfold number_type. destruct t; simpl; split; intuition congruence. Qed.

Section S.
Variable same : value -> value -> bool.
Variable type_order : pystr -> list dtype -> list dtype.
Variable layer_order : list lid -> list lid.
Hypothesis TO : forall f, rearranges (type_order f).
Hypothesis LO : rearranges layer_order.

(** [fs] lists, up to types of the same name, exactly the pairs of P *)
Record lists (fs : dict (list dtype)) (P : pystr -> dtype -> Prop) : Prop := {
  li_nodup : NoDup (dkeys fs);
  li_some : forall f ts, dget fs f = Some ts -> ts <> [] /\ forall t, In t ts -> P f t;
  li_all : forall f t, P f t -> exists ts u, dget fs f = Some ts /\ In u ts /\ dt_name u = dt_name t }.
Lemma lists_ext fs P Q : (forall f t, P f t <-> Q f t) -> lists fs P -> lists fs Q.
Proof. intros E [N A B]. split; [exact N| |]. - intros f ts H. destruct (A f ts H). split; [assumption|]. intros t I. apply E. auto.
  - intros f t H. apply B. apply E. exact H. Qed.

Lemma plain_iff t : forallb (fun kv : pystr * value => hashable (snd kv)) (dt_opts t) = true <-> plain_options t.
Proof. unfold plain_options. rewrite forallb_forall. split.
  - intros H k v I l ->. specialize (H _ I). discriminate.
  - intros H [k v] I. simpl. destruct v; try reflexivity. exfalso. eapply H; eauto. Qed.

Lemma add_type_ok fs f t P : lists fs P -> plain_options t -> exists fs', add_type same fs f t = Ok fs' /\ lists fs' (fun g u => P g u \/ g = f /\ u = t).
Proof.
  intros [N A B] Hp. unfold add_type. apply plain_iff in Hp. rewrite Hp. eexists. split; [reflexivity|].
  set (ts := match dget fs f with Some ts => ts | None => [] end).
  assert (TS : forall u, In u ts -> P f u). { unfold ts. destruct (dget fs f) eqn:E; [|intros u []]. apply (A _ _ E). }
  split.
  - apply NoDup_dset. exact N.
  - intros g us. rewrite dget_dset. destruct (str_eqb_spec g f) as [->|Hn].
    + intros [= <-]. split.
      * destruct (existsb _ ts) eqn:X; [|destruct ts; discriminate]. destruct ts; [discriminate|congruence].
      * intros u I. destruct (existsb _ ts); [left; auto|]. apply in_app_iff in I. destruct I as [I|[<-|[]]]; auto.
    + intros H. destruct (A _ _ H) as [H1 H2]. split; [exact H1|]. intros u I. left; auto.
  - intros g u [H|[-> ->]].
    + destruct (B _ _ H) as (us & w & E & I & Nm). rewrite dget_dset. destruct (str_eqb_spec g f) as [->|Hn].
      * exists (if existsb (dt_same same t) ts then ts else ts ++ [t]), w. repeat split; auto. unfold ts. rewrite E.
        destruct (existsb _ us); [exact I|]. apply in_app_iff. auto.
      * exists us, w. auto.
    + rewrite dget_dset. destruct (str_eqb_spec f f) as [_|]; [|congruence].
      destruct (existsb (dt_same same t) ts) eqn:X.
      * apply existsb_exists in X. destruct X as (w & I & D). exists ts, w. repeat split; auto.
        unfold dt_same in D. apply andb_true_iff in D. destruct D as [D _]. apply andb_true_iff in D. destruct D as [D _]. apply tname_eqb_eq in D. auto.
      * exists (ts ++ [t]), t. repeat split; auto. apply in_app_iff. simpl; auto.
Qed.
Lemma add_type_plain fs f t fs' : add_type same fs f t = Ok fs' -> plain_options t.
Proof. unfold add_type. destruct (forallb _ _) eqn:E; [|discriminate]. intros _. apply plain_iff. exact E. Qed.

Lemma typeof_plain h v t : typeof h v None = Ok t -> plain_options t.
Proof. intros H k w I l ->. destruct v; simpl in H; try discriminate;
    repeat match type of H with
    | (match ?x with _ => _ end) = _ => destruct x eqn:?; try discriminate
    end; apply (f_equal (fun r => match r with Ok a => dt_opts a | Err _ => [] end)) in H; cbn beta iota in H; rewrite <- H in I;
    simpl in I; repeat destruct I as [I|I]; try discriminate I; try contradiction. Qed.

Lemma add_values_ok h kvs : forall fs P, lists fs P -> (forall f v, In (f, v) kvs -> exists t, typeof h v None = Ok t) ->
  exists fs', add_values same h fs kvs = Ok fs' /\ lists fs' (fun g u => P g u \/ exists v, In (g, v) kvs /\ typeof h v None = Ok u).
Proof.
  induction kvs as [|[f v] r IH]; intros fs P L T; simpl.
  - exists fs. split; [reflexivity|]. eapply lists_ext; [|exact L]. intros g u. split; [auto|]. intros [H|(w & [] & _)]. exact H.
  - destruct (T f v (or_introl eq_refl)) as (t & Ht). rewrite Ht. cbn [rbind].
    destruct (add_type_ok fs f t P L (typeof_plain _ _ _ Ht)) as (f1 & E1 & L1). rewrite E1. cbn [rbind].
    destruct (IH f1 _ L1) as (f2 & E2 & L2). { intros g w I. apply (T g w). right; exact I. }
    exists f2. split; [exact E2|]. eapply lists_ext; [|exact L2]. intros g u. split.
    + intros [[H|[-> ->]]|(w & I & Hw)]; [auto| |]. * right. exists v. auto. * right. exists w. auto.
    + intros [H|(w & [[= <- <-]|I] & Hw)]; [auto| |]. * left. right. split; [reflexivity|congruence]. * right. exists w. auto.
Qed.
Lemma add_values_typed h kvs : forall fs fs', add_values same h fs kvs = Ok fs' -> forall f v, In (f, v) kvs -> exists t, typeof h v None = Ok t.
Proof. induction kvs as [|[f v] r IH]; intros fs fs' H g w I; [destruct I|]. simpl in H. destruct (typeof h v None) eqn:E; [|discriminate]. cbn [rbind] in H.
  destruct (add_type same fs f a) eqn:E2; [|discriminate]. cbn [rbind] in H. destruct I as [[= <- <-]|I]; eauto. Qed.

Definition dangling (h : heap) (ns : list nid) (f : pystr) (t : dtype) : Prop :=
  exists n v, In n ns /\ n_collof h n = None /\ In (f, v) (n_fieldsof h n) /\ typeof h v None = Ok t.
Lemma scan_nodes_ok h ns : forall fs ls P, lists fs P -> all_typed h ns ->
  exists fs' ls', scan_nodes same h fs ls ns = Ok (fs', ls') /\ lists fs' (fun f t => P f t \/ dangling h ns f t) /\
    (forall l, In l ls' <-> In l ls \/ exists n, In n ns /\ n_collof h n = Some l).
Proof.
  induction ns as [|n r IH]; intros fs ls P L T; simpl.
  - exists fs, ls. split; [reflexivity|]. split.
    + eapply lists_ext; [|exact L]. intros g u. split; [auto|]. intros [H|(n & v & [] & _)]. exact H.
    + intros l. split; [auto|]. intros [H|(n & [] & _)]. exact H.
  - assert (T' : all_typed h r). { intros m f v I. apply (T m f v). right; exact I. }
    destruct (n_collof h n) as [c|] eqn:C.
    + destruct (IH fs (if existsb (Nat.eqb c) ls then ls else ls ++ [c]) P L T') as (f2 & l2 & E & L2 & M).
      exists f2, l2. split; [exact E|]. split.
      * eapply lists_ext; [|exact L2]. intros g u. split; (intros [H|(m & v & I & H)]; [auto|right]).
        -- exists m, v. split; [right; exact I|exact H].
        -- exists m, v. destruct I as [<-|I]; [destruct H; congruence|]. auto.
      * intros l. rewrite M. assert (X : In l (if existsb (Nat.eqb c) ls then ls else ls ++ [c]) <-> In l ls \/ c = l).
        { destruct (existsb (Nat.eqb c) ls) eqn:X.
          - apply existsb_exists in X. destruct X as (x & I & Ex). apply Nat.eqb_eq in Ex. subst x. split; [auto|]. intros [H| ->]; assumption.
          - rewrite in_app_iff. simpl. tauto. }
        rewrite X. split.
        -- intros [[H|<-]|(m & I & H)]; [auto|right; exists n; auto|right; exists m; auto].
        -- intros [H|(m & [<-|I] & H)]; [auto|left; right; congruence|right; exists m; auto].
    + destruct (add_values_ok h (n_fieldsof h n) fs P L) as (f1 & E1 & L1). { intros f v I. apply (T n f v); auto. left; reflexivity. }
      rewrite E1. cbn [rbind]. destruct (IH f1 ls _ L1 T') as (f2 & l2 & E & L2 & M). exists f2, l2. split; [exact E|]. split.
      * eapply lists_ext; [|exact L2]. intros g u. split.
        -- intros [[H|(v & I & H)]|(m & v & I & H)]; [auto| |]; right. ++ exists n, v. simpl. auto. ++ exists m, v. simpl. tauto.
        -- intros [H|(m & v & [<-|I] & Hc & Hi & Ht)]; [auto| |]. ++ left. right. exists v. auto. ++ right. exists m, v. auto.
      * intros l. rewrite M. split.
        -- intros [H|(m & I & H)]; [auto|]. right. exists m. auto.
        -- intros [H|(m & [<-|I] & H)]; [auto|congruence|]. right. exists m. auto.
Qed.
Lemma scan_nodes_typed h ns : forall fs ls x, scan_nodes same h fs ls ns = Ok x -> all_typed h ns.
Proof. induction ns as [|n r IH]; intros fs ls x H m f v I C J; [destruct I|]. simpl in H. destruct I as [<-|I].
  - rewrite C in H. destruct (add_values same h fs (n_fieldsof h n)) eqn:E; [|discriminate]. eapply add_values_typed; eauto.
  - destruct (n_collof h n); [eapply (IH _ _ _ H); eauto|]. destruct (add_values same h fs (n_fieldsof h n)) eqn:E; [|discriminate]. cbn [rbind] in H. eapply (IH _ _ _ H); eauto. Qed.

Lemma add_fields_ok kts : forall fs P, lists fs P -> (forall f t, In (f, t) kts -> plain_options t) ->
  exists fs', add_fields same fs kts = Ok fs' /\ lists fs' (fun g u => P g u \/ In (g, u) kts).
Proof.
  induction kts as [|[f t] r IH]; intros fs P L T; simpl.
  - exists fs. split; [reflexivity|]. eapply lists_ext; [|exact L]. intros g u. tauto.
  - destruct (add_type_ok fs f t P L (T f t (or_introl eq_refl))) as (f1 & E1 & L1). rewrite E1. cbn [rbind].
    destruct (IH f1 _ L1) as (f2 & E2 & L2). { intros g w I. apply (T g w). right; exact I. }
    exists f2. split; [exact E2|]. eapply lists_ext; [|exact L2]. intros g u. split.
    + intros [[H|[-> ->]]|H]; auto.
    + intros [H|[[= <- <-]|H]]; auto.
Qed.
Lemma add_fields_plain kts : forall fs fs', add_fields same fs kts = Ok fs' -> forall f t, In (f, t) kts -> plain_options t.
Proof. induction kts as [|[f t] r IH]; intros fs fs' H g w I; [destruct I|]. simpl in H. destruct (add_type same fs f t) eqn:E; [|discriminate]. cbn [rbind] in H.
  destruct I as [[= <- <-]|I]; [eapply add_type_plain; eauto|eauto]. Qed.
Lemma scan_layers_ok h ls : forall fs P, lists fs P -> (forall l f t, In l ls -> In (f, t) (l_fields (h_layer h l)) -> plain_options t) ->
  exists fs', scan_layers same h fs ls = Ok fs' /\ lists fs' (fun g u => P g u \/ exists l, In l ls /\ In (g, u) (l_fields (h_layer h l))).
Proof.
  induction ls as [|l r IH]; intros fs P L T; simpl.
  - exists fs. split; [reflexivity|]. eapply lists_ext; [|exact L]. intros g u. split; [auto|]. intros [H|(l & [] & _)]. exact H.
  - destruct (add_fields_ok (l_fields (h_layer h l)) fs P L) as (f1 & E1 & L1). { intros f t. apply T. left; reflexivity. }
    rewrite E1. cbn [rbind]. destruct (IH f1 _ L1) as (f2 & E2 & L2). { intros k f t I. apply T. right; exact I. }
    exists f2. split; [exact E2|]. eapply lists_ext; [|exact L2]. intros g u. split.
    + intros [[H|H]|(k & I & H)]; [auto| |]; right; [exists l|exists k]; auto.
    + intros [H|(k & [<-|I] & H)]; auto. right. exists k. auto.
Qed.
Lemma scan_layers_plain h ls : forall fs fs', scan_layers same h fs ls = Ok fs' -> forall l f t, In l ls -> In (f, t) (l_fields (h_layer h l)) -> plain_options t.
Proof. induction ls as [|l r IH]; intros fs fs' H k f t I J; [destruct I|]. simpl in H. destruct (add_fields same fs (l_fields (h_layer h l))) eqn:E; [|discriminate]. cbn [rbind] in H.
  destruct I as [<-|I]; [eapply add_fields_plain; eauto|eauto]. Qed.

(** merging *)
Lemma priority_num a : is_numeric (dt_name a) = true -> exists p, type_priority (dt_name a) = Some p.
Proof. destruct (dt_name a); simpl; try discriminate; eauto. Qed.
Lemma num_priority a p : type_priority (dt_name a) = Some p -> is_numeric (dt_name a) = true.
Proof. destruct (dt_name a); simpl; try discriminate; eauto. Qed.
Lemma merge_ok ts : forall t, is_numeric (dt_name t) = true -> (forall u, In u ts -> is_numeric (dt_name u) = true) -> exists c, merge t ts = Ok c.
Proof.
  induction ts as [|u r IH]; intros t N A; simpl; [eauto|]. unfold cast_up_possible.
  assert (Nu : is_numeric (dt_name u) = true) by (apply A; left; reflexivity). rewrite N, Nu.
  replace (if tname_eqb (dt_name t) (dt_name u) then true else true) with true by (destruct (tname_eqb _ _); reflexivity). cbn [negb].
  unfold cast_up. destruct (priority_num _ N) as (p & ->). destruct (priority_num _ Nu) as (q & ->). cbn [rbind].
  apply IH; [destruct (q <=? p); assumption|]. intros w I. apply A. right; exact I.
Qed.
Lemma merge_num ts : forall t c, merge t ts = Ok c -> ts <> [] -> is_numeric (dt_name t) = true /\ forall u, In u ts -> is_numeric (dt_name u) = true.
Proof.
  induction ts as [|u r IH]; intros t c H Hn; [congruence|]. simpl in H. destruct (negb _); [discriminate|]. unfold cast_up in H.
  destruct (type_priority (dt_name t)) as [p|] eqn:P; [|discriminate]. destruct (type_priority (dt_name u)) as [q|] eqn:Q; [|discriminate]. cbn [rbind] in H.
  assert (Nt := num_priority _ _ P). assert (Nu := num_priority _ _ Q). split; [exact Nt|]. intros w [<-|I]; [exact Nu|].
  destruct r as [|x r]; [destruct I|]. destruct (IH _ _ H) as [_ A]; [congruence|]. apply A. exact I.
Qed.
Lemma merge_err ts : forall t e, merge t ts = Err e -> e = ValueError \/ e = AssertionError.
Proof. induction ts as [|u r IH]; intros t e H; simpl in H; [discriminate|]. destruct (negb _); [left; congruence|]. unfold cast_up in H.
  destruct (type_priority (dt_name t)); [|right; cbn in H; congruence]. destruct (type_priority (dt_name u)); [|right; cbn in H; congruence]. cbn [rbind] in H. eauto. Qed.

Definition one_name (ts : list dtype) : Prop := forall t u, In t ts -> In u ts -> dt_name t = dt_name u.
Definition all_num (ts : list dtype) : Prop := forall t, In t ts -> number_type (dt_name t).
Lemma one_name_dec t more : forallb (fun u => tname_eqb (dt_name u) (dt_name t)) more = true <-> one_name (t :: more).
Proof. rewrite forallb_forall. split.
  - intros H. assert (A : forall u, In u (t :: more) -> dt_name u = dt_name t). { intros u [<-|I]; [reflexivity|]. apply tname_eqb_eq. auto. }
    intros u w I J. rewrite (A u I), (A w J). reflexivity.
  - intros H u I. apply tname_eqb_eq. apply H; simpl; auto. Qed.
Lemma one_name_perm a b : Permutation a b -> one_name a -> one_name b.
Proof. intros P H t u I J. apply H; eapply Permutation_in; try eassumption; apply Permutation_sym; exact P. Qed.

Lemma output_ok fs : (forall f ts, In (f, ts) fs -> ts <> []) ->
  ((exists out, output_types type_order fs = Ok out) <-> forall f ts, In (f, ts) fs -> one_name ts \/ all_num ts).
Proof.
  induction fs as [|[f ts] r IH]; intros Ne; simpl.
  - split; [intros _ f ts []|eauto].
  - assert (Ne' : forall g us, In (g, us) r -> us <> []) by (intros g us I; apply (Ne g us); right; exact I). specialize (IH Ne').
    assert (Hts : ts <> []) by (apply (Ne f ts); left; reflexivity).
    pose proof (TO f ts) as Pm. destruct (type_order f ts) as [|t more] eqn:O. { apply Permutation_nil in Pm. congruence. }
    assert (D : (exists out, (if 1 <? zlen ts then if forallb (fun u => tname_eqb (dt_name u) (dt_name t)) more then let* out := output_types type_order r in Ok ((f, t) :: out)
        else let* _ := merge t more in output_types type_order r else let* out := output_types type_order r in Ok ((f, t) :: out)) = Ok out) <->
        (one_name ts \/ all_num ts) /\ exists out, output_types type_order r = Ok out).
    { assert (Q : (exists out, (let* out := output_types type_order r in Ok ((f, t) :: out)) = Ok out) <-> exists out, output_types type_order r = Ok out).
      { destruct (output_types type_order r); cbn [rbind]; split; intros (o & H); try discriminate; eauto. }
      destruct (1 <? zlen ts) eqn:Z.
      - destruct (forallb _ more) eqn:F.
        + rewrite Q. apply one_name_dec in F. split; [|tauto]. intros H. split; [|exact H]. left. eapply one_name_perm; eauto.
        + destruct (merge t more) as [c|e] eqn:M; cbn [rbind].
          * assert (more <> []) by (intros ->; discriminate). destruct (merge_num _ _ _ M H) as [A B].
            split; [|tauto]. intros G. split; [|exact G]. right. intros u I. apply numeric_iff. apply (Permutation_in (l' := t :: more)) in I; [|apply Permutation_sym; exact Pm].
            destruct I as [<-|I]; auto.
          * split; [intros (o & X); discriminate|]. intros [[H|H] _].
            -- exfalso. assert (one_name (t :: more)) by (eapply one_name_perm; [apply Permutation_sym; exact Pm|exact H]). apply one_name_dec in H0. congruence.
            -- exfalso. destruct (merge_ok more t) as (c & X); [| |congruence].
               ++ apply numeric_iff. apply H. eapply Permutation_in; [exact Pm|left; reflexivity].
               ++ intros u I. apply numeric_iff. apply H. eapply Permutation_in; [exact Pm|right; exact I].
      - rewrite Q. split; [|tauto]. intros G. split; [|exact G]. left. apply Z.ltb_ge in Z. unfold zlen in Z. destruct ts as [|x [|y ts]]; [congruence| |simpl in Z; lia].
        intros a b [<-|[]] [<-|[]]. reflexivity. }
    rewrite D. rewrite IH. split.
    + intros [A B] g us [[= <- <-]|I]; auto. apply (B g us I).
    + intros H. split; [apply (H f ts); auto|]. intros g us I. apply (H g us). right; exact I.
Qed.
Lemma output_err fs e : (forall f ts, In (f, ts) fs -> ts <> []) -> output_types type_order fs = Err e -> e = ValueError \/ e = AssertionError.
Proof.
  induction fs as [|[f ts] r IH]; intros Ne H; simpl in H; [discriminate|].
  assert (Ne' : forall g us, In (g, us) r -> us <> []) by (intros g us I; apply (Ne g us); right; exact I).
  assert (Hts : ts <> []) by (apply (Ne f ts); left; reflexivity).
  pose proof (TO f ts) as Pm. destruct (type_order f ts) as [|t more] eqn:O. { apply Permutation_nil in Pm. congruence. }
  assert (Q : (let* out := output_types type_order r in Ok ((f, t) :: out)) = Err e -> e = ValueError \/ e = AssertionError).
  { destruct (output_types type_order r) as [o|e'] eqn:E; cbn [rbind]; [discriminate|]. intros [= <-]. auto. }
  destruct (1 <? zlen ts); [|auto]. destruct (forallb _ more); [auto|]. destruct (merge t more) eqn:M; cbn [rbind] in H; [auto|]. injection H as <-. eapply merge_err; eauto.
Qed.
Lemma output_get fs : forall out, (forall f ts, In (f, ts) fs -> ts <> []) -> NoDup (dkeys fs) -> output_types type_order fs = Ok out ->
  forall f, (dget fs f = None -> dget out f = None) /\
    forall ts, dget fs f = Some ts -> (one_name ts -> exists t, dget out f = Some t /\ In t ts) /\ (~ one_name ts -> dget out f = None).
Proof.
  induction fs as [|[f ts] r IH]; intros out Ne N H; simpl in H.
  - injection H as <-. intros f. split; [reflexivity|]. discriminate.
  - assert (Ne' : forall g us, In (g, us) r -> us <> []) by (intros g us I; apply (Ne g us); right; exact I).
    assert (Hts : ts <> []) by (apply (Ne f ts); left; reflexivity). inversion N as [|? ? Nf N']; subst. unfold dkeys in Nf. simpl in Nf.
    pose proof (TO f ts) as Pm. destruct (type_order f ts) as [|t more] eqn:O. { apply Permutation_nil in Pm. congruence. }
    assert (Hnone : forall o, output_types type_order r = Ok o -> dget o f = None).
    { intros o E. apply (IH o Ne' N' E f). destruct (dget r f) eqn:G; [|reflexivity]. exfalso. apply Nf. apply dget_In in G. apply (in_map fst) in G. exact G. }
    assert (Hkeep : forall o, output_types type_order r = Ok o -> one_name ts -> out = (f, t) :: o -> forall g, (dget ((f, ts) :: r) g = None -> dget out g = None) /\
       forall us, dget ((f, ts) :: r) g = Some us -> (one_name us -> exists t, dget out g = Some t /\ In t us) /\ (~ one_name us -> dget out g = None)).
    { intros o E On -> g. simpl. destruct (str_eqb_spec g f) as [->|Hn].
      - split; [discriminate|]. intros us [= <-]. split; [|tauto]. intros _. exists t. split; [reflexivity|]. eapply Permutation_in; [exact Pm|left; reflexivity].
      - apply (IH o Ne' N' E g). }
    destruct (1 <? zlen ts) eqn:Z.
    + destruct (forallb _ more) eqn:F.
      * destruct (output_types type_order r) as [o|] eqn:E; [|discriminate]. injection H as <-. apply (Hkeep o eq_refl); [|reflexivity].
        apply one_name_dec in F. eapply one_name_perm; eauto.
      * destruct (merge t more); [|discriminate]. cbn [rbind] in H. intros g. simpl. destruct (str_eqb_spec g f) as [->|Hn].
        -- split; [discriminate|]. intros us [= <-]. split; [|intros _; apply Hnone; exact H].
           intros On. exfalso. assert (one_name (t :: more)) by (eapply one_name_perm; [apply Permutation_sym; exact Pm|exact On]). apply one_name_dec in H0. congruence.
        -- apply (IH out Ne' N' H g).
    + destruct (output_types type_order r) as [o|] eqn:E; [|discriminate]. injection H as <-. apply (Hkeep o eq_refl); [|reflexivity].
      apply Z.ltb_ge in Z. unfold zlen in Z. destruct ts as [|x [|y ts]]; [congruence| |simpl in Z; lia]. intros a b [<-|[]] [<-|[]]. reflexivity.
Qed.

Lemma live_some ns : live (map Some ns) = ns.
Proof. induction ns as [|n r IH]; simpl; [reflexivity|]. f_equal. exact IH. Qed.
Lemma all_some (ns : list nid) : forallb (fun o : option nid => match o with Some _ => true | None => false end) (map Some ns) = true.
Proof. induction ns; simpl; auto. Qed.
Lemma lists_nil : lists [] (fun _ _ => False).
Proof. split; [constructor|discriminate|intros f t []]. Qed.

(** the scan gathers the contributed types *)
Lemma gather h ns : all_typed h ns -> (forall f t, contributes h ns f t -> plain_options t) ->
  exists fs ls fs', scan_nodes same h [] [] ns = Ok (fs, ls) /\ scan_layers same h fs (layer_order ls) = Ok fs' /\ lists fs' (contributes h ns).
Proof.
  intros T Pl. destruct (scan_nodes_ok h ns [] [] _ lists_nil T) as (fs & ls & E & L & M).
  assert (M' : forall l, In l (layer_order ls) <-> exists n, In n ns /\ n_collof h n = Some l).
  { intros l. transitivity (In l ls). { split; apply Permutation_in; [apply LO|apply Permutation_sym; apply LO]. } rewrite M. simpl. tauto. }
  destruct (scan_layers_ok h (layer_order ls) fs _ L) as (fs' & E' & L').
  { intros l f t I J. apply M' in I. destruct I as (n & I & C). apply (Pl f t). eapply co_layer; eauto. }
  exists fs, ls, fs'. split; [exact E|]. split; [exact E'|]. eapply lists_ext; [|exact L']. intros f t. split.
  - intros [[[]|(n & v & I & C & J & Ty)]|(l & I & J)].
    + eapply co_value; eauto.
    + apply M' in I. destruct I as (n & I & C). eapply co_layer; eauto.
  - intros [n l I C J|n v I C J Ty].
    + right. exists l. split; [apply M'; eauto|exact J].
    + left. right. exists n, v. auto.
Qed.
Lemma gathered h ns fs ls fs' : scan_nodes same h [] [] ns = Ok (fs, ls) -> scan_layers same h fs (layer_order ls) = Ok fs' ->
  all_typed h ns /\ forall f t, contributes h ns f t -> plain_options t.
Proof.
  intros E E'. assert (T := scan_nodes_typed _ _ _ _ _ E). split; [exact T|].
  destruct (scan_nodes_ok h ns [] [] _ lists_nil T) as (fs0 & ls0 & E0 & L & M). assert (fs0 = fs /\ ls0 = ls) as [-> ->] by (split; congruence).
  intros f t [n l I C J|n v I C J Ty].
  - eapply (scan_layers_plain _ _ _ _ E' l); [|exact J]. eapply Permutation_in; [apply Permutation_sym; apply LO|]. apply M. eauto.
  - eapply typeof_plain; eauto.
Qed.
Lemma lists_one fs P f ts : lists fs P -> dget fs f = Some ts -> one_name ts <-> (forall t u, P f t -> P f u -> dt_name t = dt_name u).
Proof.
  intros [N A B] G. split.
  - intros O t u Ht Hu. destruct (B _ _ Ht) as (ts1 & t' & G1 & I1 & <-). destruct (B _ _ Hu) as (ts2 & u' & G2 & I2 & <-).
    assert (ts1 = ts) by congruence. assert (ts2 = ts) by congruence. subst. auto.
  - intros H t u I J. apply H; eapply A; eauto.
Qed.
Lemma lists_merge fs P f ts : lists fs P -> dget fs f = Some ts ->
  (one_name ts \/ all_num ts) <-> (forall t u, P f t -> P f u -> dt_name t = dt_name u \/ number_type (dt_name t) /\ number_type (dt_name u)).
Proof.
  intros L G. pose proof L as [N A B]. split.
  - intros [O|O] t u Ht Hu. + left. exact (proj1 (lists_one _ _ _ _ L G) O t u Ht Hu).
    + right. destruct (B _ _ Ht) as (ts1 & t' & G1 & I1 & <-). destruct (B _ _ Hu) as (ts2 & u' & G2 & I2 & <-).
      assert (ts1 = ts) by congruence. assert (ts2 = ts) by congruence. subst. split; apply O; assumption.
  - intros H. destruct ts as [|t0 r]. { left. intros t u []. }
    destruct (forallb (fun u => tname_eqb (dt_name u) (dt_name t0)) r) eqn:F; [left; apply one_name_dec; exact F|]. right.
    assert (exists u, In u r /\ dt_name u <> dt_name t0) as (u0 & Iu & Nu).
    { clear -F. induction r as [|x r IH]; simpl in F; [discriminate|]. destruct (tname_eqb (dt_name x) (dt_name t0)) eqn:E.
      - destruct (IH F) as (u & I & H). exists u. simpl. auto.
      - exists x. split; [left; reflexivity|]. intros X. apply tname_eqb_eq in X. congruence. }
    assert (PA : forall t, In t (t0 :: r) -> P f t) by (eapply A; eauto).
    assert (N0 : number_type (dt_name t0) /\ number_type (dt_name u0)). { destruct (H t0 u0) as [X|X]; [apply PA; left; reflexivity|apply PA; right; exact Iu|congruence|exact X]. }
    intros t I. destruct (H t t0 (PA _ I)) as [->|[X _]]; [apply PA; left; reflexivity|apply N0|exact X].
Qed.
Lemma lists_nonempty fs P : lists fs P -> forall f ts, In (f, ts) fs -> ts <> [].
Proof. intros [N A B] f ts I. apply (A f ts). apply dget_nodup; assumption. Qed.

Lemma nodelist_ok h ns : (exists c, new_nodelist same type_order layer_order h (map Some ns) None = Ok c) <->
  all_typed h ns /\ (forall f t, contributes h ns f t -> plain_options t) /\ forall f, mergeable h ns f.
Proof.
  unfold new_nodelist. rewrite all_some, live_some. cbn [negb]. split.
  - intros (c & H). destruct (scan_nodes same h [] [] ns) as [[fs ls]|] eqn:E; [|discriminate]. cbn [rbind] in H.
    destruct (scan_layers same h fs (layer_order ls)) as [fs'|] eqn:E'; [|discriminate]. cbn [rbind] in H.
    destruct (output_types type_order fs') as [out|] eqn:O; [|discriminate].
    destruct (gathered _ _ _ _ _ E E') as [T Pl]. split; [exact T|]. split; [exact Pl|].
    destruct (gather h ns T Pl) as (fs1 & ls1 & fs2 & E1 & E2 & L). assert (fs1 = fs /\ ls1 = ls) as [-> ->] by (split; congruence). assert (fs2 = fs') by congruence. subst fs2.
    intros f t u Ht Hu. destruct (li_all _ _ L _ _ Ht) as (ts & _ & G & _ & _).
    apply (proj1 (lists_merge _ _ _ _ L G)); [|exact Ht|exact Hu].
    apply (proj1 (output_ok fs' (lists_nonempty _ _ L)) (ex_intro _ _ O) f ts). apply dget_In. exact G.
  - intros (T & Pl & Mg). destruct (gather h ns T Pl) as (fs & ls & fs' & E1 & E2 & L). rewrite E1. cbn [rbind]. rewrite E2. cbn [rbind].
    destruct (proj2 (output_ok fs' (lists_nonempty _ _ L))) as (out & O).
    { intros f ts I. apply dget_nodup in I; [|apply L]. apply (proj2 (lists_merge _ _ _ _ L I)). apply Mg. }
    rewrite O. cbn [rbind]. eauto.
Qed.
Lemma nodelist_fields h ns c : new_nodelist same type_order layer_order h (map Some ns) None = Ok c ->
  exists fs, c = CList fs ns /\ forall f,
    ((forall t, ~ contributes h ns f t) -> dget fs f = None) /\
    ((exists t, contributes h ns f t) -> agree h ns f -> exists t, dget fs f = Some t /\ contributes h ns f t) /\
    (~ agree h ns f -> dget fs f = None).
Proof.
  intros H. destruct (proj1 (nodelist_ok h ns) (ex_intro _ _ H)) as (T & Pl & Mg). unfold new_nodelist in H. rewrite all_some, live_some in H. cbn [negb] in H.
  destruct (gather h ns T Pl) as (fs & ls & fs' & E1 & E2 & L). rewrite E1 in H. cbn [rbind] in H. rewrite E2 in H. cbn [rbind] in H.
  destruct (output_types type_order fs') as [out|] eqn:O; [|discriminate]. injection H as <-. exists out. split; [reflexivity|]. intros f.
  destruct (output_get fs' out (lists_nonempty _ _ L) (li_nodup _ _ L) O f) as [G1 G2]. repeat split.
  - intros Hn. apply G1. destruct (dget fs' f) as [ts|] eqn:G; [|reflexivity]. exfalso. destruct (li_some _ _ L _ _ G) as [Ne A]. destruct ts as [|t ts]; [congruence|]. apply (Hn t). apply A. left; reflexivity.
  - intros (t & Ht) Ag. destruct (li_all _ _ L _ _ Ht) as (ts & u & G & I & Nm). destruct (G2 ts G) as [G3 _]. destruct G3 as (w & W & J).
    { apply (lists_one _ _ _ _ L G). exact Ag. } exists w. split; [exact W|]. eapply (li_some _ _ L); eauto.
  - intros Na. destruct (dget fs' f) as [ts|] eqn:G; [|auto]. apply (G2 ts eq_refl). intros On. apply Na. exact (proj1 (lists_one _ _ _ _ L G) On).
Qed.
Lemma nodelist_conflict h ns e : all_typed h ns -> (forall f t, contributes h ns f t -> plain_options t) ->
  new_nodelist same type_order layer_order h (map Some ns) None = Err e -> e = ValueError \/ e = AssertionError.
Proof.
  intros T Pl H. unfold new_nodelist in H. rewrite all_some, live_some in H. cbn [negb] in H.
  destruct (gather h ns T Pl) as (fs & ls & fs' & E1 & E2 & L). rewrite E1 in H. cbn [rbind] in H. rewrite E2 in H. cbn [rbind] in H.
  destruct (output_types type_order fs') as [out|e'] eqn:O; [discriminate|]. injection H as <-. eapply output_err; [|exact O]. eapply lists_nonempty; eauto.
Qed.
End S.

Lemma nodelist_given same tor lor h ns fs : new_nodelist same tor lor h (map Some ns) (Some fs) = Ok (CList fs ns).
Proof. unfold new_nodelist. rewrite all_some, live_some. reflexivity. Qed.
Lemma nodelist_others same tor lor h a b ft : exists e, new_nodelist same tor lor h (a ++ None :: b) ft = Err e.
Proof. unfold new_nodelist. rewrite forallb_app. simpl. rewrite andb_false_r. simpl. eauto. Qed.
