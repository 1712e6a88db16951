From Verif Require Import PyBase PyBaseFacts Model_Heap Model_Text Model_Msgpack Model_Document Model_Codec Model_Lazy Model_Collection Model_Index Model_Tar Model_Path Spec_Path Proof_Path.
From Verif Require Proof_Msgpack Proof_Codec.
Local Open Scope nat_scope.

(** ** Joining *)
Lemma join_place a b x : isabs b = false -> isabs (path_join a b) = isabs a /\
  fold_left walk (split_slash (path_join a b)) x = fold_left walk (split_slash b) (fold_left walk (split_slash a) x).
Proof.
  intros B. assert (J : path_join a b = match rev a with [] => b | c :: _ => if N.eqb c 47 then a ++ b else a ++ 47%N :: b end).
  { unfold path_join. assert (H : forall X, match b with 47%N :: _ => b | _ => X end = X).
    { intros X. destruct b as [|c p]; [reflexivity|]. simpl in B. destruct c as [|c]; [reflexivity|]. do 6 (destruct c as [c|c|]; try reflexivity; try discriminate B). }
    rewrite H. destruct (rev a) as [|c r]; [reflexivity|]. destruct c as [|c]; [reflexivity|]. do 6 (destruct c as [c|c|]; try reflexivity). }
  rewrite J. destruct (rev a) as [|c r] eqn:R.
  - apply (f_equal (@rev N)) in R. rewrite rev_involutive in R. simpl in R. subst. split; [exact B|reflexivity].
  - assert (C : a = rev r ++ [c]) by (rewrite <- (rev_involutive a), R; reflexivity). assert (NE : a <> []) by (intros ->; discriminate).
    assert (I : forall z, isabs (a ++ z) = isabs a) by (destruct a; [contradiction|reflexivity]). destruct (N.eqb_spec c 47) as [->|D].
    + split; [apply I|]. rewrite C, <- app_assoc. simpl. rewrite split_app, fold_left_app. f_equal. change [47%N] with (47%N :: []). rewrite split_app, fold_left_app. reflexivity.
    + split; [apply I|]. rewrite split_app. apply fold_left_app.
Qed.
Lemma place_child cwd path n : proper_name n -> place cwd (path_join path n) = place cwd path ++ [n].
Proof.
  intros P. pose proof P as (D1 & D2 & D3 & N).
  assert (B : isabs n = false) by (destruct n as [|c n]; [reflexivity|]; apply N.eqb_neq; intros E; apply N; left; exact E).
  assert (SN : split_slash n = [n]) by (apply split_is; constructor; exact N).
  unfold place. destruct (join_place path n (if isabs path then [] else fold_left walk (split_slash cwd) []) B) as (-> & ->).
  rewrite SN. apply (walk_proper [n]). constructor; [exact P|constructor].
Qed.

(** ** Indexes of several files *)
Definition placed (cwd : pystr) (l : list (pystr * findex)) : list (list pystr) := map (fun e => place cwd (fst e)) l.
Lemma open_place fs cwd p : isabs cwd = true -> open_file fs cwd p = match fs (place cwd p) with Some b => Ok b | None => Err IOError end.
Proof. intros A. unfold open_file. destruct (abspath_parts cwd p A) as (-> & _). reflexivity. Qed.
Lemma path_search_place {A} (take : heap -> block -> block * hres A) g fs cwd cwd' h p p' ix conds : isabs cwd = true -> isabs cwd' = true -> place cwd p = place cwd' p' ->
  path_search take g fs cwd h p ix conds = path_search take g fs cwd' h p' ix conds.
Proof. intros C C' E. unfold path_search. rewrite (open_place fs cwd p C), (open_place fs cwd' p' C'), E. reflexivity. Qed.
Lemma multi_search_place {A} (take : heap -> block -> block * hres A) g fs cwd cwd' conds : isabs cwd = true -> isabs cwd' = true ->
  forall l l', Forall2 (fun e e' => place cwd (fst e) = place cwd' (fst e') /\ snd e = snd e') l l' -> forall h,
  multi_search take g fs cwd h l conds = multi_search take g fs cwd' h l' conds.
Proof.
  intros C C' l l' F. induction F as [|[p ix] [p' ix'] l l' (E & X) F IH]; intros h; [reflexivity|]. simpl in E, X. subst ix'. cbn [multi_search].
  rewrite (path_search_place take g fs cwd cwd' h p p' ix conds C C' E). destruct (path_search take g fs cwd' h p' ix conds) as [[h1 l1] [u|e]]; [rewrite IH; reflexivity|reflexivity].
Qed.
Lemma dset_new {V} (d : dict V) k v : ~ In k (dkeys d) -> dset d k v = d ++ [(k, v)].
Proof.
  induction d as [|[k' v'] d IH]; intros N; [reflexivity|]. simpl. destruct (str_eqb_spec k k') as [->|D].
  - exfalso. apply N. left. reflexivity.
  - rewrite IH; [reflexivity|]. intros I. apply N. right. exact I.
Qed.
Lemma adds_ok cwd d base : isabs cwd = true -> isabs d = true -> place d d = place cwd base -> forall l idx done,
  (forall p ix, In (p, ix) l -> p <> []) -> NoDup (placed cwd (done ++ l)) -> Forall2 (fun e e' => place d (fst e) = place cwd (fst e') /\ snd e = snd e') idx done ->
  exists idx', multi_adds cwd (mkMI base idx) l = Ok (mkMI base idx') /\ Forall2 (fun e e' => place d (fst e) = place cwd (fst e') /\ snd e = snd e') idx' (done ++ l).
Proof.
  intros A D PB. induction l as [|[p ix] l IH]; intros idx done NE ND F.
  - exists idx. rewrite app_nil_r. auto.
  - cbn [multi_adds]. unfold multi_add. cbn [mi_base mi_index].
    destruct (relpath_ok cwd p base A (NE p ix (or_introl eq_refl))) as (q & -> & _ & _ & W). cbn [rbind]. specialize (W d D PB).
    assert (NI : ~ In q (dkeys idx)).
    { intros I. apply in_map_iff in I. destruct I as (e & E & I). apply in_split in I. destruct I as (l1 & l2 & ->).
      apply Forall2_app_inv_l in F. destruct F as (d1 & d2 & _ & F2 & ->). inversion F2 as [|? e' ? d3 (X & _) _]; subst.
      unfold placed in ND. rewrite map_app in ND. apply NoDup_remove_2 in ND. apply ND. apply in_or_app. left.
      rewrite map_app. apply in_or_app. right. left. cbn [fst]. rewrite <- X, W. reflexivity. }
    rewrite (dset_new _ _ _ NI). replace (done ++ (p, ix) :: l) with ((done ++ [(p, ix)]) ++ l) by (rewrite <- app_assoc; reflexivity).
    apply IH.
    + intros p' ix' I. apply (NE p' ix'). right. exact I.
    + rewrite <- app_assoc. exact ND.
    + apply Forall2_app; [exact F|]. constructor; [split; [exact W|reflexivity]|constructor].
Qed.
Lemma place_self d cwd : isabs d = true -> place d d = place cwd d.
Proof. intros H. unfold place. rewrite H. reflexivity. Qed.
Lemma multi_ok cwd0 at_ base dir fl : absolute cwd0 -> leads [] cwd0 at_ -> leads at_ base dir ->
  (forall p ix, In (p, ix) fl -> p <> []) ->
  (forall i j p q ix jx to, nth_error fl i = Some (p, ix) -> nth_error fl j = Some (q, jx) -> leads at_ p to -> leads at_ q to -> i = j) ->
  exists m, multi_adds cwd0 (new_index cwd0 base) fl = Ok m /\
    forall A (take : heap -> block -> block * hres A) g fs cwd h conds, absolute cwd -> leads [] cwd dir ->
      multi_search take g fs cwd h (mi_index m) conds = multi_search take g fs cwd0 h fl conds.
Proof.
  intros A L B NE DI. apply absolute_abs in A.
  assert (PD : dir = place cwd0 base) by (eapply leads_fun; [exact B|apply leads_place; assumption]).
  assert (ND : NoDup (placed cwd0 fl)).
  { apply NoDup_nth_error. intros i j Hi E.
    assert (X : forall k, nth_error (placed cwd0 fl) k = option_map (fun e => place cwd0 (fst e)) (nth_error fl k)) by (intros k; apply nth_error_map).
    rewrite !X in E. destruct (nth_error fl i) as [[p ix]|] eqn:Ei; [|apply nth_error_Some in Hi; rewrite X, Ei in Hi; contradiction].
    destruct (nth_error fl j) as [[q jx]|] eqn:Ej; [|cbn [option_map] in E; congruence]. cbn [option_map fst] in E. injection E as E.
    apply (DI i j p q ix jx (place cwd0 p) Ei Ej); [apply leads_place; assumption|]. rewrite E. apply leads_place; assumption. }
  destruct (abspath_parts cwd0 base A) as (_ & _ & G).
  destruct (adds_ok cwd0 (abspath cwd0 base) (abspath cwd0 base) A G) with (l := fl) (idx := @nil (pystr * findex)) (done := @nil (pystr * findex)) as (idx & E & F).
  { apply place_self, G. }
  { exact NE. } { exact ND. } { constructor. }
  unfold new_index. exists (mkMI (abspath cwd0 base) idx). split; [exact E|]. intros T take g fs cwd h conds C LC. apply absolute_abs in C. cbn [mi_index].
  apply multi_search_place; [exact C|exact A|]. cbn [app] in F.
  assert (PC : place cwd cwd = place (abspath cwd0 base) (abspath cwd0 base)).
  { rewrite (place_abspath cwd0 base A), <- PD. eapply leads_fun; [apply leads_root, C|exact LC]. }
  assert (Q : forall q, isabs q = false -> place cwd q = place (abspath cwd0 base) q).
  { intros q H. unfold place in *. rewrite C, G in PC. rewrite H, PC. reflexivity. }
  assert (Q' : forall q, place cwd q = place (abspath cwd0 base) q).
  { intros q. destruct (isabs q) eqn:H; [unfold place; rewrite H; reflexivity|apply Q, H]. }
  clear -F Q'. induction F as [|e e' l l' (X & Y) F IH]; constructor; [split; [rewrite Q'; exact X|exact Y]|exact IH].
Qed.

(** ** The file filter *)
Lemma split_dot_ok x : forall a b, split_dot x = (a, b) -> ~ In 46%N a /\ x = a ++ match b with Some r => 46%N :: r | None => [] end.
Proof.
  induction x as [|c x IH]; intros a b E; simpl in E; [injection E as <- <-; split; [intros []|reflexivity]|].
  destruct (N.eqb_spec c 46) as [->|D]; [injection E as <- <-; split; [intros []|reflexivity]|].
  destruct (split_dot x) as [a' b'] eqn:S. injection E as <- <-. destruct (IH _ _ eq_refl) as (N & ->). split; [intros [E|I]; [apply D; exact E|contradiction]|reflexivity].
Qed.
Lemma split_dot_stem a r : ~ In 46%N a -> split_dot (a ++ 46%N :: r) = (a, Some r).
Proof.
  induction a as [|c a IH]; intros N; simpl; [reflexivity|]. destruct (N.eqb_spec c 46) as [->|D]; [exfalso; apply N; left; reflexivity|].
  rewrite IH; [reflexivity|]. intros I. apply N. right; exact I.
Qed.
Lemma filter_ok x : name_filter x = true <-> docria_name x.
Proof.
  unfold name_filter, docria_name. split.
  - destruct (split_dot x) as [[|c a] [r|]] eqn:E; try discriminate. destruct (split_dot_ok _ _ _ E) as (N & ->). intros H.
    apply existsb_exists in H. destruct H as (y & I & Y). destruct (str_eqb_spec r y) as [->|]; [|discriminate].
    destruct I as [<-|[<-|[<-|[<-|[<-|[]]]]]].
    + exists (c :: a), []. repeat split; auto; [discriminate|left; reflexivity].
    + exists (c :: a), (s ".xz"). repeat split; auto; [discriminate|right; left; reflexivity].
    + exists (c :: a), (s ".bz2"). repeat split; auto; [discriminate|do 2 right; left; reflexivity].
    + exists (c :: a), (s ".z"). repeat split; auto; [discriminate|do 3 right; left; reflexivity].
    + exists (c :: a), (s ".lz4"). repeat split; auto; [discriminate|do 4 right; left; reflexivity].
  - intros (st & e & D & N & I & ->). change (s ".docria" ++ e) with (46%N :: s "docria" ++ e). rewrite (split_dot_stem st (s "docria" ++ e) N).
    destruct st; [contradiction|]. simpl in I. destruct I as [<-|[<-|[<-|[<-|[<-|[]]]]]]; reflexivity.
Qed.
Lemma docria_proper n : docria_name n -> ~ In 47%N n -> proper_name n.
Proof.
  intros (st & e & D & N & I & ->) NS. destruct st as [|c st]; [contradiction|]. split; [discriminate|]. split; [|split; [|exact NS]].
  - intros E. apply (f_equal (@length BinNums.N)) in E. rewrite app_length in E. simpl in E. lia.
  - intros E. apply (f_equal (@length BinNums.N)) in E. rewrite app_length in E. simpl in E. lia.
Qed.
Lemma mapM_pairs {A B} (f : A -> res B) l : forall m, mapM (fun p => let* x := f p in Ok (p, x)) l = Ok m -> exists xs, Forall2 (fun p x => f p = Ok x) l xs /\ m = combine l xs.
Proof.
  induction l as [|a l IH]; intros m E; simpl in E; [injection E as <-; exists []; split; [constructor|reflexivity]|].
  destruct (f a) as [x|] eqn:F; [|discriminate]. cbn [rbind] in E. destruct (mapM _ l) as [m'|] eqn:M; [|discriminate]. cbn [rbind] in E. injection E as <-.
  destruct (IH _ eq_refl) as (xs & G & ->). exists (x :: xs). split; [constructor; assumption|reflexivity].
Qed.
Lemma Forall2_map_l {A B C} (f : A -> B) (P : B -> C -> Prop) l m : Forall2 P (map f l) m -> Forall2 (fun a c => P (f a) c) l m.
Proof. revert m. induction l; intros m H; inversion H; subst; constructor; auto. Qed.
Lemma directory_ok fuel g fs cwd0 at_ path dir0 names props base dir m : absolute cwd0 -> leads [] cwd0 at_ -> leads at_ base dir -> leads at_ path dir0 ->
  NoDup names -> (forall n, In n names -> ~ In 47%N n) -> directory_index fuel g fs cwd0 path names props base = Ok m ->
  exists docs ixs, Forall2 (fun n ix => exists b, fs (dir0 ++ [n]) = Some b /\ index_build fuel g b props = Ok ix) docs ixs /\
    (forall n, In n docs <-> In n names /\ docria_name n) /\ NoDup docs /\
    forall A (take : heap -> block -> block * hres A) cwd h conds, absolute cwd -> leads [] cwd dir ->
      multi_search take g fs cwd h (mi_index m) conds = multi_search take g fs cwd0 h (combine (map (path_join path) docs) ixs) conds.
Proof.
  intros A L B P ND NS E. unfold directory_index in E. destruct (mapM _ (docria_files path names)) as [l|] eqn:M in E; [|discriminate]. cbn [rbind] in E.
  apply mapM_pairs in M. destruct M as (ixs & F & ->). unfold docria_files in *. set (docs := filter name_filter names) in *.
  assert (DI : forall n, In n docs <-> In n names /\ docria_name n) by (intros n; unfold docs; rewrite filter_In, filter_ok; reflexivity).
  assert (NDd : NoDup docs) by (apply NoDup_filter, ND). assert (A' := proj1 (absolute_abs cwd0) A).
  assert (PP : dir0 = place cwd0 path) by (eapply leads_fun; [exact P|apply leads_place; assumption]).
  assert (PR : forall n, In n docs -> proper_name n) by (intros n I; apply DI in I; destruct I as (I & X); apply docria_proper; [exact X|apply NS, I]).
  apply Forall2_map_l in F. exists docs, ixs. split; [|split; [exact DI|split; [exact NDd|]]].
  - eapply Proof_Codec.Forall2_impl'; [exact F|]. intros n ix I H. cbv beta in H. unfold file_index in H. rewrite (open_place fs cwd0 _ A') in H.
    rewrite (place_child cwd0 path n (PR n I)), <- PP in H. destruct (fs (dir0 ++ [n])) as [b|]; [|discriminate]. exists b. split; [reflexivity|exact H].
  - destruct (multi_ok cwd0 at_ base dir (combine (map (path_join path) docs) ixs) A L B) as (m' & E' & S).
    + intros p ix I. apply in_combine_l in I. apply in_map_iff in I. destruct I as (n & <- & I). specialize (PR n I). intros Z.
      assert (X := place_child cwd0 path n PR). rewrite Z in X. unfold place in X.
      destruct (join_place path n [] ltac:(destruct PR as (_ & _ & _ & Q); destruct n as [|c n]; [reflexivity|]; apply N.eqb_neq; intros Y; apply Q; left; exact Y)) as (J & W).
      rewrite Z in W. cbn in W. assert (SN : split_slash n = [n]) by (apply split_is; constructor; apply PR). rewrite SN in W.
      rewrite (walk_proper [n]) in W by (constructor; [exact PR|constructor]). destruct (fold_left walk (split_slash path) []); discriminate W.
    + intros i j p q ix jx to Hi Hj Lp Lq.
      assert (TN : forall i p ix, nth_error (combine (map (path_join path) docs) ixs) i = Some (p, ix) -> exists n, nth_error docs i = Some n /\ p = path_join path n).
      { clear. intros i. revert ixs. induction docs as [|n ds IH] in i |- *; intros ixs p ix H; [destruct i; discriminate|]. destruct ixs as [|x xs]; [destruct i; discriminate|].
        destruct i as [|i]; simpl in H; [injection H as <- <-; exists n; auto|]. apply IH in H. exact H. }
      destruct (TN i p ix Hi) as (n & Ni & ->). destruct (TN j q jx Hj) as (n' & Nj & ->).
      assert (X : place cwd0 (path_join path n) = place cwd0 (path_join path n')).
      { transitivity to; [|symmetry]; (eapply leads_fun; [apply leads_place; [exact A'|exact L]|assumption]). }
      rewrite !place_child in X by (apply PR; eapply nth_error_In; eassumption). apply app_inj_tail in X. destruct X as (_ & <-).
      apply (proj1 (NoDup_nth_error docs) NDd i j); [apply nth_error_Some; congruence|congruence].
    + rewrite E in E'. injection E' as <-. intros T take cwd h conds. apply S.
Qed.
Lemma split_is_pieces p : pieces p (split_slash p).
Proof. apply split_pieces. Qed.
Lemma relpath_same cwd at_ p p' base to : absolute cwd -> leads [] cwd at_ -> p <> [] -> p' <> [] -> leads at_ p to -> leads at_ p' to -> relpath cwd p base = relpath cwd p' base.
Proof.
  intros A L N N' P P'. apply absolute_abs in A. unfold relpath. destruct (abspath_parts cwd p A) as (E & _). destruct (abspath_parts cwd p' A) as (E' & _).
  assert (X : place cwd p = place cwd p') by (transitivity to; [|symmetry]; (eapply leads_fun; [apply leads_place; [exact A|exact L]|assumption])).
  destruct p; [contradiction|]. destruct p'; [contradiction|]. rewrite E, E', X. reflexivity.
Qed.
Lemma multi_files g fs cwd at_ h conds (fl : list (pystr * findex)) ls : absolute cwd -> leads [] cwd at_ ->
  Forall2 (fun e l => exists to b, leads at_ (fst e) to /\ fs to = Some b /\ index_search take_lazy g h b (snd e) conds = (h, l, Ok tt)) fl ls ->
  multi_search take_lazy g fs cwd h fl conds = (h, List.concat ls, Ok tt).
Proof.
  intros A L F. apply absolute_abs in A. induction F as [|[p ix] l fl ls (to & b & P & B & S) F IH]; [reflexivity|]. cbn [fst snd] in *. cbn [multi_search].
  assert (X : to = place cwd p) by (eapply leads_fun; [exact P|apply leads_place; assumption]).
  assert (Y : path_search take_lazy g fs cwd h p ix conds = (h, l, Ok tt)).
  { unfold path_search. rewrite (open_place fs cwd p A), <- X, B. unfold index_search in S |- *. destruct (found ix conds) as [[|n f]|e]; [|exact S|discriminate S].
    cbn in S. first [exact S | rewrite <- S; reflexivity]. }
  rewrite Y, IH. reflexivity.
Qed.
(** a search without results opens no file *)
Lemma search_none {A} (take : heap -> block -> block * hres A) g h f ix conds h' : index_search take g h f ix conds = (h', [], Ok tt) -> Model_Index.found ix conds = Ok [].
Proof.
  unfold index_search. destruct (Model_Index.found ix conds) as [[|i ids]|e]; [reflexivity| |discriminate]. destruct (reader_open g f) as [r|e]; [|discriminate].
  cbn [fetch_all]. destruct (nth_error (fi_refs ix) i) as [ref|]; [|discriminate]. destruct (fetch take h r None ref) as [[r1 l1] [h1 [x|e]]]; [|discriminate].
  destruct (fetch_all take ix h1 r1 l1 ids) as [[h2 l] e]. discriminate.
Qed.
Lemma none_opened {A} (take : heap -> block -> block * hres A) g h f ix conds h' : index_search take g h f ix conds = (h', [], Ok tt) ->
  forall fs cwd p h0, path_search take g fs cwd h0 p ix conds = (h0, [], Ok tt).
Proof. intros H fs cwd p h0. apply search_none in H. unfold path_search. rewrite H. reflexivity. Qed.
