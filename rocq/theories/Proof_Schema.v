(** A printed schema determines the schema. *)
From Verif Require Import PyBase PyBaseFacts Model_Heap Model_Layer Model_Types Model_Document Model_Codec Model_Query Model_Repr Model_Schema Spec_Query Spec_Schema Proof_Query Proof_Repr.
From Verif Require Model_Printout.
Local Open Scope Z_scope.

(** *** cutting at a character *)
Lemma cut_at (c : N) : forall a b r r', ~ In c a -> ~ In c b -> a ++ c :: r = b ++ c :: r' -> a = b /\ r = r'.
Proof.
  induction a as [|x a IH]; intros [|y b] r r' A B E; simpl in *.
  - injection E as <-. auto.
  - injection E as -> _. tauto.
  - injection E as -> _. tauto.
  - assert (x = y) by congruence. subst y. assert (E' : a ++ c :: r = b ++ c :: r') by congruence. destruct (IH b r r') as [-> ->]; auto; tauto.
Qed.
Lemma cut_end (c : N) a b r r' : ~ In c a -> ~ In c b -> (r = [] \/ exists x, r = c :: x) -> (r' = [] \/ exists x, r' = c :: x) -> a ++ r = b ++ r' -> a = b /\ r = r'.
Proof.
  intros A B [->|(x & ->)] [->|(y & ->)] E.
  - rewrite !app_nil_r in E. auto.
  - rewrite app_nil_r in E. subst a. exfalso. apply A, in_app_iff. right. left. reflexivity.
  - rewrite app_nil_r in E. subst b. exfalso. apply B, in_app_iff. right. left. reflexivity.
  - destruct (cut_at c a b x y A B E). subst. auto.
Qed.
Lemma unlines_inj : forall a b : list pystr, (forall x, In x a -> ~ In 10%N x) -> (forall x, In x b -> ~ In 10%N x) ->
  flat_map (fun x => x ++ [10%N]) a = flat_map (fun x => x ++ [10%N]) b -> a = b.
Proof.
  induction a as [|x a IH]; intros [|y b] A B E; simpl in E.
  - reflexivity.
  - destruct y; discriminate.
  - destruct x; discriminate.
  - rewrite <- !app_assoc in E. simpl in E. destruct (cut_at 10%N x y _ _ (A x (or_introl eq_refl)) (B y (or_introl eq_refl)) E) as [-> E'].
    f_equal. apply IH; [intros z I; apply A; right; exact I|intros z I; apply B; right; exact I|exact E'].
Qed.
Lemma join_inj : forall a b : list pystr, (forall x, In x a -> ~ In 44%N x) -> (forall x, In x b -> ~ In 44%N x) -> a <> [] -> b <> [] ->
  Model_Printout.join (s ", ") a = Model_Printout.join (s ", ") b -> a = b.
Proof.
  assert (J : forall x y r, Model_Printout.join (s ", ") (x :: y :: r) = x ++ 44%N :: 32%N :: Model_Printout.join (s ", ") (y :: r)) by reflexivity.
  assert (J1 : forall x, Model_Printout.join (s ", ") [x] = x) by reflexivity.
  induction a as [|x a IH]; intros [|y b] A B Na Nb E; try congruence.
  destruct a as [|x' a], b as [|y' b].
  - rewrite !J1 in E. congruence.
  - rewrite J1, J in E. exfalso. apply (A x (or_introl eq_refl)). rewrite E. apply in_app_iff. right. left. reflexivity.
  - rewrite J1, J in E. exfalso. apply (B y (or_introl eq_refl)). rewrite <- E. apply in_app_iff. right. left. reflexivity.
  - rewrite !J in E. destruct (cut_at 44%N x y _ _ (A x (or_introl eq_refl)) (B y (or_introl eq_refl)) E) as [-> E']. f_equal.
    apply IH; try discriminate; [intros z I; apply A; right; exact I|intros z I; apply B; right; exact I|congruence].
Qed.

Section Proof.
Variable vstr : value -> pystr.
(** what is shown of a field, and of a layer *)
Definition fview : Type := (pystr * tname * list (pystr * pystr))%type.
Definition view_field (ft : pystr * dtype) : fview := (fst ft, dt_name (snd ft), map (fun kv => (fst kv, vstr (snd kv))) (dt_opts (snd ft))).
Definition view_opts (os : list (pystr * pystr)) : pystr :=
  match os with [] => [] | _ => s "[" ++ Model_Printout.join (s ", ") (map (fun kv => fst kv ++ s "=" ++ snd kv) os) ++ s "]" end.
Definition tstr (t : tname) : pystr := match type_string t with Ok x => x | Err _ => [] end.
Definition view_line (w : nat) (v : fview) : pystr := s " * " ++ ljust w (fst (fst v)) ++ s " : " ++ tstr (snd (fst v)) ++ view_opts (snd v).
Definition view_width (vs : list fview) : nat := fold_right Nat.max 0%nat (map (fun v => length (fst (fst v))) vs).
Definition view_lines (kv : pystr * list fview) : list pystr := (s "[" ++ fst kv ++ s "]") :: map (view_line (view_width (snd kv))) (snd kv) ++ [[]].

Lemma type_known t : t <> TUnknown -> type_string t = Ok (tstr t).
Proof. destruct t; intros H; try reflexivity. congruence. Qed.
Lemma opts_view t : options_text vstr t = view_opts (map (fun kv => (fst kv, vstr (snd kv))) (dt_opts t)).
Proof.
  unfold options_text, view_opts. destruct (dt_opts t) as [|o os]; [reflexivity|].
  assert (E : map (fun kv : pystr * value => fst kv ++ s "=" ++ vstr (snd kv)) (o :: os) =
    map (fun kv : pystr * pystr => fst kv ++ s "=" ++ snd kv) (map (fun kv : pystr * value => (fst kv, vstr (snd kv))) (o :: os))) by (rewrite map_map; reflexivity).
  exact (f_equal (fun l => s "[" ++ Model_Printout.join (s ", ") l ++ s "]") E).
Qed.
Lemma field_lines_view w fs : (forall f t, In (f, t) fs -> dt_name t <> TUnknown) -> field_lines vstr w fs = (map (view_line w) (map view_field fs), Ok tt).
Proof.
  induction fs as [|[f t] fs IH]; intros H; [reflexivity|]. simpl. unfold field_line. cbn [fst snd]. rewrite (type_known (dt_name t) (H f t (or_introl eq_refl))). cbn [rbind].
  rewrite IH by (intros g u I; apply (H g u); right; exact I). rewrite opts_view. reflexivity.
Qed.
Lemma layer_lines_view h kl : (forall f t, In (f, t) (l_fields (h_layer h (snd kl))) -> dt_name t <> TUnknown) ->
  layer_lines vstr h kl = (view_lines (fst kl, map view_field (l_fields (h_layer h (snd kl)))), Ok tt).
Proof.
  intros H. unfold layer_lines. rewrite (field_lines_view _ _ H). unfold view_lines. cbn [fst snd].
  assert (E : view_width (map view_field (l_fields (h_layer h (snd kl)))) = max_length (l_fields (h_layer h (snd kl)))).
  { unfold view_width, max_length. rewrite map_map. reflexivity. }
  rewrite E. reflexivity.
Qed.
Lemma all_lines_view h ls : (forall k l, In (k, l) ls -> forall f t, In (f, t) (l_fields (h_layer h l)) -> dt_name t <> TUnknown) ->
  all_lines vstr h ls = (flat_map view_lines (map (fun kl => (fst kl, map view_field (l_fields (h_layer h (snd kl))))) ls), Ok tt).
Proof.
  induction ls as [|[k l] ls IH]; intros H; [reflexivity|]. cbn [all_lines]. rewrite layer_lines_view by (apply (H k l); left; reflexivity).
  rewrite IH by (intros k' l' I; apply (H k' l'); right; exact I). reflexivity.
Qed.

(** *** reading *)
Definition vfield_ok (v : fview) : Prop := ~ In 10%N (fst (fst v)) /\ ~ In 32%N (fst (fst v)) /\ snd (fst v) <> TUnknown /\
  forall o x, In (o, x) (snd v) -> ~ In 61%N o /\ ~ In 10%N o /\ ~ In 44%N o /\ ~ In 10%N x /\ ~ In 44%N x.
Lemma tstr_no c t : In c (tstr t) -> (48 <= c)%N /\ c <> 91%N /\ c <> 58%N.
Proof. destruct t; vm_compute; intros H; repeat (destruct H as [<-|H]; [repeat split; discriminate|]); destruct H. Qed.
Lemma tstr_inj a b : a <> TUnknown -> b <> TUnknown -> tstr a = tstr b -> a = b.
Proof. destruct a, b; intros A B E; try reflexivity; try congruence; vm_compute in E; discriminate. Qed.
Lemma opts_inj a b : (forall o x, In (o, x) a -> ~ In 61%N o /\ ~ In 10%N o /\ ~ In 44%N o /\ ~ In 10%N x /\ ~ In 44%N x) ->
  (forall o x, In (o, x) b -> ~ In 61%N o /\ ~ In 10%N o /\ ~ In 44%N o /\ ~ In 10%N x /\ ~ In 44%N x) -> view_opts a = view_opts b -> a = b.
Proof.
  intros A B E. destruct a as [|[o x] a], b as [|[p y] b]; [reflexivity|discriminate|discriminate|]. unfold view_opts in E.
  set (g := fun kv : pystr * pystr => fst kv ++ s "=" ++ snd kv) in *.
  apply app_inv_head in E. apply app_inv_tail in E.
  assert (G : forall l, (forall o x, In (o, x) l -> ~ In 61%N o /\ ~ In 10%N o /\ ~ In 44%N o /\ ~ In 10%N x /\ ~ In 44%N x) -> forall z, In z (map g l) -> ~ In 44%N z).
  { intros l H z I J. apply in_map_iff in I. destruct I as ([q w] & <- & I). destruct (H q w I) as (_ & _ & H1 & _ & H2). unfold g in J. simpl in J.
    apply in_app_iff in J. destruct J as [J|[J|J]]; [tauto|discriminate|tauto]. }
  apply join_inj in E; [|apply G, A|apply G, B|discriminate|discriminate]. revert E A B. generalize ((o, x) :: a) ((p, y) :: b). clear -g.
  intros a. induction a as [|[o x] a IH]; intros [|[p y] b] E A B; try discriminate; [reflexivity|]. cbn [map] in E.
  injection E as E1 E2. unfold g in E1. cbn [fst snd] in E1.
  destruct (A o x (or_introl eq_refl)) as (A1 & _). destruct (B p y (or_introl eq_refl)) as (B1 & _).
  destruct (cut_at 61%N o p x y A1 B1 E1) as [-> ->]. f_equal. apply IH; [exact E2|intros q w I; apply (A q w); right; exact I|intros q w I; apply (B q w); right; exact I].
Qed.
Lemma opts_head a : view_opts a = [] \/ exists x, view_opts a = 91%N :: x.
Proof. destruct a; [left; reflexivity|right]. eexists. reflexivity. Qed.
Lemma line_inj w w' a b : vfield_ok a -> vfield_ok b -> view_line w a = view_line w' b -> a = b.
Proof.
  destruct a as [[f t] os], b as [[g u] qs]. intros (A1 & A2 & A3 & A4) (B1 & B2 & B3 & B4) E. cbn [fst snd] in *. unfold view_line, ljust in E. cbn [fst snd] in E.
  apply app_inv_head in E. rewrite <- !app_assoc in E.
  assert (R : forall n (x : pystr), exists m, repeat 32%N n ++ s " : " ++ x = 32%N :: repeat 32%N m ++ 58%N :: 32%N :: x /\ (m = n)%nat).
  { intros n x. exists n. split; [|reflexivity]. induction n as [|n IH]; [reflexivity|]. cbn [repeat app]. rewrite IH. reflexivity. }
  destruct (R (w - length f)%nat (tstr t ++ view_opts os)) as (m & E1 & _). destruct (R (w' - length g)%nat (tstr u ++ view_opts qs)) as (m' & E2 & _).
  rewrite E1, E2 in E. destruct (cut_at 32%N f g _ _ A2 B2 E) as [-> E'].
  assert (P : forall n, ~ In 58%N (repeat 32%N n)) by (intros n I; apply repeat_spec in I; discriminate).
  destruct (cut_at 58%N _ _ _ _ (P m) (P m') E') as [_ E3]. assert (E4 : tstr t ++ view_opts os = tstr u ++ view_opts qs) by congruence.
  destruct (cut_end 91%N (tstr t) (tstr u) (view_opts os) (view_opts qs)) as [X Y]; [intros I; apply tstr_no in I; tauto|intros I; apply tstr_no in I; tauto|apply opts_head|apply opts_head|exact E4|].
  apply tstr_inj in X; [|exact A3|exact B3]. apply opts_inj in Y; [|exact A4|exact B4]. subst. reflexivity.
Qed.
Lemma lines_inj w w' : forall a b x y, (forall v, In v a -> vfield_ok v) -> (forall v, In v b -> vfield_ok v) ->
  map (view_line w) a ++ [] :: x = map (view_line w') b ++ [] :: y -> a = b /\ x = y.
Proof.
  induction a as [|v a IH]; intros [|u b] x y A B E; cbn [map app] in E.
  - split; [reflexivity|congruence].
  - discriminate.
  - discriminate.
  - assert (E1 : view_line w v = view_line w' u) by congruence. assert (E2 : map (view_line w) a ++ [] :: x = map (view_line w') b ++ [] :: y) by congruence.
    apply line_inj in E1; [|apply A; left; reflexivity|apply B; left; reflexivity]. subst u.
    destruct (IH b x y) as [-> ->]; [intros z I; apply A; right; exact I|intros z I; apply B; right; exact I|exact E2|auto].
Qed.
Lemma views_inj : forall a b, (forall k vs, In (k, vs) a -> forall v, In v vs -> vfield_ok v) -> (forall k vs, In (k, vs) b -> forall v, In v vs -> vfield_ok v) ->
  flat_map view_lines a = flat_map view_lines b -> a = b.
Proof.
  induction a as [|[k vs] a IH]; intros [|[k' us] b] A B E; try (unfold view_lines in E; discriminate); [reflexivity|]. cbn [flat_map] in E. unfold view_lines at 1 3 in E.
  assert (E1 : 91%N :: (k ++ [93%N]) = 91%N :: (k' ++ [93%N])) by exact (f_equal (fun l : list pystr => hd [] l) E).
  assert (E2 : (map (view_line (view_width vs)) vs ++ [[]]) ++ flat_map view_lines a = (map (view_line (view_width us)) us ++ [[]]) ++ flat_map view_lines b) by exact (f_equal (fun l : list pystr => tl l) E).
  assert (k = k') by (apply (app_inv_tail [93%N]); congruence). subst k'. rewrite <- !app_assoc in E2. cbn [app] in E2.
  destruct (lines_inj _ _ vs us _ _ (A k vs (or_introl eq_refl)) (B k us (or_introl eq_refl)) E2) as [-> E3]. f_equal.
  apply IH; [intros q w I; apply (A q w); right; exact I|intros q w I; apply (B q w); right; exact I|exact E3].
Qed.

(** *** sorted dictionaries *)
Lemma sorted_unique {V} : forall a b : list (pystr * V), NoDup (map fst a) -> NoDup (map fst b) ->
  StronglySorted (fun x y => str_leb (fst x) (fst y) = true) a -> StronglySorted (fun x y => str_leb (fst x) (fst y) = true) b ->
  (forall x, In x a <-> In x b) -> a = b.
Proof.
  assert (Anti : forall x y, str_leb x y = true -> str_leb y x = true -> x = y).
  { intros x y. unfold str_leb. rewrite (str_cmp_anti x y). destruct (str_cmp x y) eqn:E; simpl; intros H1 H2; try discriminate. apply str_cmp_eq, E. }
  induction a as [|x a IH]; intros [|y b] Na Nb Sa Sb H.
  - reflexivity.
  - exfalso. apply (H y). left. reflexivity.
  - exfalso. apply (proj1 (H x)). left. reflexivity.
  - simpl in Na, Nb. inversion Na as [|? ? Na1 Na2]; inversion Nb as [|? ? Nb1 Nb2]; subst. inversion Sa as [|? ? Sa1 Sa2]; inversion Sb as [|? ? Sb1 Sb2]; subst.
    rewrite Forall_forall in Sa2, Sb2.
    assert (E : x = y).
    { destruct (proj1 (H x) (or_introl eq_refl)) as [E|I]; [congruence|]. destruct (proj2 (H y) (or_introl eq_refl)) as [E|J]; [congruence|].
      pose proof (Anti _ _ (Sa2 y J) (Sb2 x I)) as Ef. exfalso. apply Na1. rewrite Ef. apply in_map, J. }
    subst y. f_equal. apply IH; auto. intros z. split; intros I.
    + destruct (proj1 (H z) (or_intror I)) as [<-|J]; [|exact J]. exfalso. apply Na1, in_map, I.
    + destruct (proj2 (H z) (or_intror I)) as [<-|J]; [|exact J]. exfalso. apply Nb1, in_map, I.
Qed.
Definition views (h : heap) (d : doc) : list (pystr * list fview) :=
  map (fun kl => (fst kl, map view_field (l_fields (h_layer h (snd kl))))) (ssort fst str_leb (d_layers d)).
Lemma views_in h d k vs : NoDup (dkeys (d_layers d)) -> In (k, vs) (views h d) <-> schema_of vstr h d k = Some vs.
Proof.
  intros Nd. unfold views, schema_of. rewrite in_map_iff. split.
  - intros ([k' l] & E & I). cbn [fst snd] in E. apply (Permutation_in _ (Permutation_sym (ssort_perm fst str_leb (d_layers d)))) in I.
    assert (k' = k) by congruence. subst k'. rewrite (dget_nodup _ _ _ Nd I). exact (f_equal (fun p => Some (snd p)) E).
  - destruct (dget (d_layers d) k) as [l|] eqn:G; [|discriminate]. intros E. apply dget_In in G. exists (k, l). split.
    + cbn [fst snd]. f_equal. injection E as E. exact E.
    + eapply Permutation_in; [apply ssort_perm|exact G].
Qed.
Lemma views_sorted h d : StronglySorted (fun x y => str_leb (fst x) (fst y) = true) (views h d).
Proof.
  unfold views. pose proof (ssort_sorted (@fst pystr lid) str_leb str_leb_total str_leb_trans (d_layers d)) as H.
  induction H as [|a r H IH F]; constructor; [exact IH|]. rewrite Forall_forall in *. intros z I. apply in_map_iff in I. destruct I as (y & <- & I). exact (F y I).
Qed.
Lemma views_nodup h d : NoDup (dkeys (d_layers d)) -> NoDup (map fst (views h d)).
Proof.
  intros H. unfold views. rewrite map_map. cbn [fst]. eapply Permutation_NoDup; [|exact H]. apply Permutation_map, ssort_perm.
Qed.
Lemma printed h d : printable vstr h d -> printschema vstr h d = (flat_map (fun x => x ++ [10%N]) (flat_map view_lines (views h d)), Ok tt).
Proof.
  intros (Nd & P). unfold printschema. rewrite all_lines_view; [reflexivity|]. intros k l I f t J.
  apply (Permutation_in _ (Permutation_sym (ssort_perm fst str_leb (d_layers d)))) in I. destruct (P k l I) as (_ & Q). apply (Q f t J).
Qed.
Lemma views_ok h d : printable vstr h d -> forall k vs, In (k, vs) (views h d) -> ~ In 10%N k /\ forall v, In v vs -> vfield_ok v.
Proof.
  intros (Nd & P) k vs I. unfold views in I. apply in_map_iff in I. destruct I as ([k' l] & E & I). cbn [fst snd] in E.
  apply (Permutation_in _ (Permutation_sym (ssort_perm fst str_leb (d_layers d)))) in I. assert (k' = k) by congruence. assert (Ev : vs = map view_field (l_fields (h_layer h l))) by congruence.
  subst k' vs. destruct (P k l I) as (P1 & P2). split; [exact P1|]. intros v J. apply in_map_iff in J. destruct J as ([f t] & <- & J). destruct (P2 f t J) as (Q1 & Q2 & Q3 & Q4).
  split; [exact Q1|]. split; [exact Q2|]. split; [exact Q3|]. intros o x K. cbn [view_field snd] in K. apply in_map_iff in K. destruct K as ([o' w] & K1 & K2). cbn [fst snd] in K1.
  assert (o' = o) by congruence. assert (vstr w = x) by congruence. subst. exact (Q4 o w K2).
Qed.
Lemma no_newline kv : ~ In 10%N (fst kv) -> (forall v, In v (snd kv) -> vfield_ok v) -> forall x, In x (view_lines kv) -> ~ In 10%N x.
Proof.
  intros A B x [<-|I] J.
  - cbn [app s] in J. change (s "[") with [91%N] in J. change (s "]") with [93%N] in J. simpl in J. destruct J as [J|J]; [discriminate|]. apply in_app_iff in J. destruct J as [J|[J|[]]]; [tauto|discriminate].
  - apply in_app_iff in I. destruct I as [I|[<-|[]]]; [|destruct J]. apply in_map_iff in I. destruct I as ([[f t] os] & <- & I). destruct (B _ I) as (B1 & _ & _ & B4). cbn [fst snd] in *.
    unfold view_line, ljust in J. cbn [fst snd] in J. rewrite !in_app_iff in J. destruct J as [J|[[J|J]|[J|[J|J]]]].
    + vm_compute in J. repeat (destruct J as [J|J]; [discriminate|]). destruct J.
    + tauto.
    + apply repeat_spec in J. discriminate.
    + vm_compute in J. repeat (destruct J as [J|J]; [discriminate|]). destruct J.
    + apply tstr_no in J. destruct J as (J & _). apply J. reflexivity.
    + unfold view_opts in J. destruct os as [|o os]; [destruct J|]. rewrite !in_app_iff in J. destruct J as [[J|[]]|[J|[J|[]]]]; try discriminate.
      revert J B4. generalize (o :: os). clear. intros l. induction l as [|[p y] l IH]; intros J B4; [destruct J|].
      assert (H : In 10%N (p ++ s "=" ++ y) \/ In 10%N (Model_Printout.join (s ", ") (map (fun kv : pystr * pystr => fst kv ++ s "=" ++ snd kv) l))).
      { destruct l as [|q l]; [left; exact J|]. cbn [map] in J.
        change (Model_Printout.join (s ", ") (?x :: ?y :: ?r)) with (x ++ s ", " ++ Model_Printout.join (s ", ") (y :: r)) in J.
        rewrite in_app_iff in J. destruct J as [J|J]; [left; exact J|]. right. cbn [map]. apply in_app_iff in J. destruct J as [J|J]; [|exact J].
        vm_compute in J. repeat (destruct J as [J|J]; [discriminate|]). destruct J. }
      destruct H as [H|H]; [|apply IH; [exact H|intros o x K; apply (B4 o x); right; exact K]].
      destruct (B4 p y (or_introl eq_refl)) as (_ & B5 & _ & B6 & _). rewrite !in_app_iff in H. destruct H as [H|[[H|[]]|H]]; [tauto|discriminate|tauto].
Qed.
Theorem same_print h d h' d' : printable vstr h d -> printable vstr h' d' ->
  printschema vstr h d = printschema vstr h' d' <-> forall k, schema_of vstr h d k = schema_of vstr h' d' k.
Proof.
  intros P P'. pose proof (proj1 P) as Nd. pose proof (proj1 P') as Nd'. rewrite (printed h d P), (printed h' d' P'). split.
  - intros E. assert (E1 : flat_map (fun x => x ++ [10%N]) (flat_map view_lines (views h d)) = flat_map (fun x => x ++ [10%N]) (flat_map view_lines (views h' d'))) by congruence.
    apply unlines_inj in E1.
    + apply views_inj in E1; [|intros k vs I; apply (views_ok h d P k vs I)|intros k vs I; apply (views_ok h' d' P' k vs I)].
      intros k. destruct (schema_of vstr h d k) as [vs|] eqn:S1.
      * apply (views_in h d k vs Nd) in S1. rewrite E1 in S1. apply (views_in h' d' k vs Nd') in S1. exact (eq_sym S1).
      * destruct (schema_of vstr h' d' k) as [vs|] eqn:S2; [|reflexivity]. apply (views_in h' d' k vs Nd') in S2. rewrite <- E1 in S2. apply (views_in h d k vs Nd) in S2. rewrite S1 in S2. exact S2.
    + intros x I. apply in_flat_map in I. destruct I as ([k vs] & I & J). destruct (views_ok h d P k vs I) as (A & B). exact (no_newline (k, vs) A B x J).
    + intros x I. apply in_flat_map in I. destruct I as ([k vs] & I & J). destruct (views_ok h' d' P' k vs I) as (A & B). exact (no_newline (k, vs) A B x J).
  - intros H. assert (E : views h d = views h' d').
    { apply sorted_unique; try apply views_nodup; try apply views_sorted; auto. intros [k vs]. rewrite (views_in h d k vs Nd), (views_in h' d' k vs Nd'), H. tauto. }
    rewrite E. reflexivity.
Qed.
End Proof.
Lemma field_lines_end vstr w fs : snd (field_lines vstr w fs) = Ok tt /\ (forall f t, In (f, t) fs -> dt_name t <> TUnknown) \/ snd (field_lines vstr w fs) = Err KeyError /\ exists f t, In (f, t) fs /\ dt_name t = TUnknown.
Proof.
  induction fs as [|[f t] fs IH]; [left; split; [reflexivity|intros f t []]|]. simpl. unfold field_line. cbn [fst snd].
  assert (T : dt_name t = TUnknown \/ exists x, type_string (dt_name t) = Ok x) by (destruct (dt_name t); simpl; eauto). destruct T as [T|(x & T)].
  - rewrite T. simpl. right. split; [reflexivity|]. exists f, t. auto.
  - rewrite T. cbn [rbind]. destruct (field_lines vstr w fs) as [xs e]. simpl in *. destruct IH as [[-> H]|(-> & g & u & I & U)].
    + left. split; [reflexivity|]. intros g u [E|I]; [|apply (H g u I)]. assert (t = u) by congruence. subst u. intros U. rewrite U in T. discriminate.
    + right. split; [reflexivity|]. exists g, u. auto.
Qed.
Lemma print_end vstr h d : (snd (printschema vstr h d) = Ok tt <-> forall k l, In (k, l) (d_layers d) -> forall f t, In (f, t) (l_fields (h_layer h l)) -> dt_name t <> TUnknown) /\
  (snd (printschema vstr h d) = Ok tt \/ snd (printschema vstr h d) = Err KeyError).
Proof.
  assert (H : forall ls, snd (all_lines vstr h ls) = Ok tt /\ (forall k l, In (k, l) ls -> forall f t, In (f, t) (l_fields (h_layer h l)) -> dt_name t <> TUnknown) \/
    snd (all_lines vstr h ls) = Err KeyError /\ exists k l f t, In (k, l) ls /\ In (f, t) (l_fields (h_layer h l)) /\ dt_name t = TUnknown).
  { induction ls as [|[k l] ls IH]; [left; split; [reflexivity|intros k l []]|]. simpl. unfold layer_lines. cbn [fst snd].
    pose proof (field_lines_end vstr (max_length (l_fields (h_layer h l))) (l_fields (h_layer h l))) as E.
    destruct (field_lines vstr _ (l_fields (h_layer h l))) as [xs e]. simpl in E. destruct E as [[-> E]|(-> & f & t & I & U)].
    - destruct (all_lines vstr h ls) as [ys e']. simpl in *. destruct IH as [[-> H]|(-> & k' & l' & f & t & I & J & U)].
      + left. split; [reflexivity|]. intros k' l' [X|I]; [|apply (H k' l' I)]. assert (l = l') by congruence. subst l'. exact E.
      + right. split; [reflexivity|]. exists k', l', f, t. auto.
    - simpl. right. split; [reflexivity|]. exists k, l, f, t. auto. }
  assert (E : snd (printschema vstr h d) = snd (all_lines vstr h (ssort fst str_leb (d_layers d)))) by (unfold printschema; destruct (all_lines _ _ _); reflexivity).
  rewrite E. pose proof (ssort_perm fst str_leb (d_layers d)) as P. destruct (H (ssort fst str_leb (d_layers d))) as [[-> K]|(-> & k & l & f & t & I & J & U)].
  - split; [|auto]. split; [intros _ k l I; apply (K k l); eapply Permutation_in; eassumption|auto].
  - split; [|auto]. split; [discriminate|]. intros K. exfalso. apply (K k l) with f t; auto. eapply Permutation_in; [apply Permutation_sym, P|exact I].
Qed.
