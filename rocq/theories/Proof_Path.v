From Verif Require Import PyBase PyBaseFacts Model_Heap Model_Text Model_Msgpack Model_Document Model_Codec Model_Lazy Model_Collection Model_Index Model_Tar Model_Path Spec_Path.
From Verif Require Model_Printout Proof_Msgpack.
Local Open Scope nat_scope.

(** ** Splitting *)
Lemma split_pieces p : pieces p (split_slash p).
Proof.
  induction p as [|c p IH]; simpl; [constructor; intros []|]. destruct (N.eqb_spec c slash) as [->|D].
  - apply (pc_more [] p (split_slash p)); [intros []|exact IH].
  - inversion IH as [x N E1 E2|x q l N P E1 E2]; subst.
    + constructor. intros [E|I]; [apply D; exact E|contradiction].
    + apply (pc_more (c :: x) q l); [|exact P]. intros [E|I]; [apply D; exact E|contradiction].
Qed.
Lemma app_slash_inj (x y p q : pystr) : ~ In 47%N x -> ~ In 47%N y -> x ++ 47%N :: p = y ++ 47%N :: q -> x = y /\ p = q.
Proof.
  revert y. induction x as [|a x IH]; intros [|b y] Nx Ny E; simpl in E.
  - injection E as ->. auto.
  - injection E as E1 _. exfalso. apply Ny. left. auto.
  - injection E as E1 _. exfalso. apply Nx. left. auto.
  - injection E as -> E. destruct (IH y) as (-> & ->); [intros I; apply Nx; right; exact I|intros I; apply Ny; right; exact I|exact E|auto].
Qed.
Lemma pieces_fun p l : pieces p l -> forall m, pieces p m -> l = m.
Proof.
  induction 1 as [x N|x p l N P IH]; intros m M.
  - inversion M as [y N' E1 E2|y q l' N' P' E1 E2]; subst; [reflexivity|]. exfalso. apply N. apply in_or_app. right. left. reflexivity.
  - remember (x ++ 47%N :: p) as z eqn:Z. destruct M as [y N'|y q l' N' P'].
    + subst y. exfalso. apply N'. apply in_or_app. right. left. reflexivity.
    + destruct (app_slash_inj _ _ _ _ N' N Z) as (-> & ->). f_equal. apply IH, P'.
Qed.
Lemma split_is p l : pieces p l -> split_slash p = l.
Proof. intros H. exact (pieces_fun _ _ (split_pieces p) _ H). Qed.
Lemma pieces_app p l : pieces p l -> forall q m, pieces q m -> pieces (p ++ 47%N :: q) (l ++ m).
Proof.
  induction 1 as [x N|x p l N P IH]; intros q m Q; simpl; [constructor; assumption|]. rewrite <- app_assoc. simpl. constructor; [exact N|]. apply IH, Q.
Qed.
Lemma split_app p q : split_slash (p ++ 47%N :: q) = split_slash p ++ split_slash q.
Proof. apply split_is, pieces_app; apply split_pieces. Qed.

(** ** Names *)
Definition proper_name (c : pystr) : Prop := c <> [] /\ c <> s "." /\ c <> s ".." /\ ~ In 47%N c.
Lemma no_slash_pieces p l : pieces p l -> forall c, In c l -> ~ In 47%N c.
Proof. induction 1 as [x N|x p l N P IH]; intros c [<-|I]; [exact N|destruct I|exact N|apply IH, I]. Qed.
Lemma str_dec (a b : pystr) : str_eqb a b = true /\ a = b \/ str_eqb a b = false /\ a <> b.
Proof. destruct (str_eqb_spec a b); auto. Qed.
Lemma removelast_app1 {A} (l : list A) x : removelast (l ++ [x]) = l.
Proof. rewrite removelast_app by discriminate. simpl. apply app_nil_r. Qed.
(** the loop of normpath below the root *)
Lemma norm_walk l : forall acc, (forall c, In c l -> ~ In 47%N c) -> Forall proper_name acc ->
  norm_comps true acc l = fold_left walk l (rev acc) /\ Forall proper_name (fold_left walk l (rev acc)).
Proof.
  induction l as [|c l IH]; intros acc N P; simpl; [split; [reflexivity|apply Forall_rev, P]|].
  assert (N' : forall x, In x l -> ~ In 47%N x) by (intros x I; apply N; right; exact I). unfold walk at 2 4.
  destruct (str_dec c []) as [(-> & ->)|(-> & D1)]; [simpl; apply IH; assumption|].
  destruct (str_dec c (s ".")) as [(E & ->)|(E & D2)]; [change (str_eqb (s ".") dot) with true; simpl; apply IH; assumption|].
  change (str_eqb c dot) with (str_eqb c (s ".")). rewrite E. cbn [orb].
  destruct (str_dec c (s "..")) as [(E' & ->)|(E' & D3)].
  - change (str_eqb (s "..") dotdot) with true. change (str_eqb (s "..") (s "..")) with true. cbn [negb orb andb].
    destruct acc as [|x acc].
    + cbn [tl rev app]. apply (IH []); [exact N'|constructor].
    + inversion P as [|? ? Px Pa]; subst. destruct Px as (_ & _ & Dx & _). change (str_eqb x dotdot) with (str_eqb x (s "..")).
      destruct (str_dec x (s "..")) as [(_ & F)|(-> & _)]; [contradiction|]. cbn [tl rev]. rewrite removelast_app1. apply IH; assumption.
  - change (str_eqb c dotdot) with (str_eqb c (s "..")). rewrite E'. cbn [negb orb]. apply (IH (c :: acc)); [exact N'|].
    constructor; [|exact P]. repeat split; auto. apply N. left; reflexivity.
Qed.
Lemma join_pieces l : l <> [] -> (forall c, In c l -> ~ In 47%N c) -> pieces (join_slash l) l.
Proof.
  induction l as [|c l IH]; intros NE N; [contradiction|]. destruct l as [|d l].
  - constructor. apply N. left; reflexivity.
  - change (join_slash (c :: d :: l)) with (c ++ 47%N :: join_slash (d :: l)). constructor; [apply N; left; reflexivity|]. apply IH; [discriminate|]. intros x I. apply N. right; exact I.
Qed.
Definition full (x : pystr) : bool := match x with [] => false | _ => true end.
Lemma filter_proper l : Forall proper_name l -> filter full l = l.
Proof. induction 1 as [|x l (D & _) F IH]; [reflexivity|]. simpl. destruct x; [contradiction|]. simpl. rewrite IH. reflexivity. Qed.
Lemma parts_join k l : Forall proper_name l -> parts (repeat slash k ++ join_slash l) = l.
Proof.
  intros P. unfold parts. fold full. induction k as [|k IH]; simpl.
  - destruct l as [|c l]; [reflexivity|]. rewrite (split_is _ _ (join_pieces (c :: l) ltac:(discriminate) ltac:(intros x I; rewrite Forall_forall in P; apply (P x I)))).
    apply filter_proper, P.
  - exact IH.
Qed.
Lemma slashes_abs p : isabs p = true -> exists k, initial_slashes p = S k.
Proof.
  unfold initial_slashes. destruct p as [|a [|b [|c p]]]; simpl; [discriminate|intros ->; eauto|intros ->; destruct (N.eqb b slash); eauto|].
  intros ->. destruct (N.eqb b slash && negb (N.eqb c slash)); eauto.
Qed.
Lemma norm_parts p : isabs p = true -> parts (normpath p) = fold_left walk (split_slash p) [] /\ Forall proper_name (parts (normpath p)) /\ isabs (normpath p) = true.
Proof.
  intros A. destruct (slashes_abs p A) as (k & K). destruct p as [|c p]; [discriminate|]. unfold normpath. rewrite K. cbn [Nat.eqb negb].
  destruct (norm_walk (split_slash (c :: p)) [] (no_slash_pieces _ _ (split_pieces _)) ltac:(constructor)) as (E & F). rewrite E.
  cbn [repeat app]. change (slash :: repeat slash k ++ ?x) with (repeat slash (S k) ++ x). rewrite parts_join by exact F. repeat split; assumption.
Qed.
Lemma fold_walk_app l m x : fold_left walk (l ++ m) x = fold_left walk m (fold_left walk l x). Proof. apply fold_left_app. Qed.
Lemma join_abs cwd p : isabs cwd = true -> isabs p = false -> isabs (path_join cwd p) = true /\
  fold_left walk (split_slash (path_join cwd p)) [] = fold_left walk (split_slash p) (fold_left walk (split_slash cwd) []).
Proof.
  intros A B. assert (J : path_join cwd p = match rev cwd with [] => p | c :: _ => if N.eqb c 47 then cwd ++ p else cwd ++ 47%N :: p end).
  { unfold path_join. assert (H : forall X, match p with 47%N :: _ => p | _ => X end = X).
    { intros X. destruct p as [|c p]; [reflexivity|]. simpl in B. destruct c as [|c]; [reflexivity|]. do 6 (destruct c as [c|c|]; try reflexivity; try discriminate B). }
    rewrite H. destruct (rev cwd) as [|c r]; [reflexivity|]. destruct c as [|c]; [reflexivity|]. do 6 (destruct c as [c|c|]; try reflexivity). }
  rewrite J. destruct (rev cwd) as [|c r] eqn:R.
  - apply (f_equal (@rev N)) in R. rewrite rev_involutive in R. simpl in R. subst. discriminate.
  - assert (C : cwd = rev r ++ [c]) by (rewrite <- (rev_involutive cwd), R; reflexivity). destruct (N.eqb_spec c 47) as [->|D].
    + split; [destruct cwd; [discriminate|exact A]|]. rewrite C, <- app_assoc. simpl. rewrite split_app, fold_walk_app. f_equal.
      change [47%N] with (47%N :: []). rewrite split_app, fold_walk_app. reflexivity.
    + split; [destruct cwd; [discriminate|exact A]|]. rewrite split_app. apply fold_walk_app.
Qed.
(** where a path leads *)
Definition place (cwd p : pystr) : list pystr := fold_left walk (split_slash p) (if isabs p then [] else fold_left walk (split_slash cwd) []).
Lemma abspath_parts cwd p : isabs cwd = true -> parts (abspath cwd p) = place cwd p /\ Forall proper_name (place cwd p) /\ isabs (abspath cwd p) = true.
Proof.
  intros A. unfold abspath, place. destruct (isabs p) eqn:B.
  - destruct (norm_parts p B) as (E & F & G). rewrite E in *. auto.
  - destruct (join_abs cwd p A B) as (J & W). destruct (norm_parts _ J) as (E & F & G). rewrite E, W in *. auto.
Qed.

(** ** relpath *)
Lemma common_prefix a : forall b, firstn (common a b) a = firstn (common a b) b /\ common a b <= length a /\ common a b <= length b.
Proof.
  induction a as [|x a IH]; intros [|y b]; simpl; try (repeat split; lia). destruct (str_dec x y) as [(-> & ->)|(-> & _)]; simpl; [|repeat split; lia].
  destruct (IH b) as (E & L & M). rewrite E. repeat split; lia.
Qed.
Lemma walk_up k : forall l, fold_left walk (repeat dotdot k) l = firstn (length l - k) l.
Proof.
  induction k as [|k IH]; intros l; simpl; [rewrite Nat.sub_0_r, firstn_all; reflexivity|].
  change (walk l dotdot) with (removelast l). rewrite IH. destruct l as [|x l] using rev_ind; [reflexivity|].
  rewrite removelast_app1, app_length. simpl. replace (length l + 1 - S k) with (length l - k) by lia. rewrite firstn_app. replace (length l - k - length l) with 0 by lia.
  simpl. rewrite app_nil_r. reflexivity.
Qed.
Lemma walk_proper l : Forall proper_name l -> forall x, fold_left walk l x = x ++ l.
Proof.
  induction 1 as [|c l (D1 & D2 & D3 & _) F IH]; intros x; simpl; [rewrite app_nil_r; reflexivity|]. rewrite IH. unfold walk.
  destruct (str_dec c []) as [(_ & E)|(-> & _)]; [contradiction|]. destruct (str_dec c (s ".")) as [(_ & E)|(-> & _)]; [contradiction|].
  destruct (str_dec c (s "..")) as [(_ & E)|(-> & _)]; [contradiction|]. simpl. rewrite <- app_assoc. reflexivity.
Qed.
Definition solid (c : pystr) : Prop := c <> [] /\ ~ In 47%N c.
Lemma path_join_solid a c : a <> [] -> last a 0%N <> 47%N -> solid c -> path_join a c = a ++ 47%N :: c.
Proof.
  intros A L (D & N). unfold path_join. assert (H : forall X, match c with 47%N :: _ => c | _ => X end = X).
  { intros X. destruct c as [|x c]; [reflexivity|]. destruct (N.eq_dec x 47) as [->|Dx]; [exfalso; apply N; left; reflexivity|].
    destruct x as [|x]; [reflexivity|]. do 6 (destruct x as [x|x|]; try reflexivity). exfalso; apply Dx; reflexivity. }
  rewrite H. destruct a as [|x a] using rev_ind; [contradiction|]. rewrite last_last in L. rewrite rev_unit.
  destruct x as [|x]; [reflexivity|]. do 6 (destruct x as [x|x|]; try reflexivity). exfalso; apply L; reflexivity.
Qed.
Lemma last_solid c : solid c -> last c 0%N <> 47%N.
Proof. intros (D & N) E. apply N. rewrite <- E. destruct c as [|x c] using rev_ind; [contradiction|]. rewrite last_last. apply in_or_app. right; left; reflexivity. Qed.
Lemma join_solid l : Forall solid l -> forall a, a <> [] -> last a 0%N <> 47%N -> fold_left path_join l a = join_slash (a :: l).
Proof.
  induction 1 as [|c l S F IH]; intros a A L; [reflexivity|]. cbn [fold_left]. rewrite (path_join_solid a c A L S). rewrite IH.
  - destruct l; cbn [join_slash Model_Printout.join]; unfold join_slash; simpl; rewrite <- ?app_assoc; reflexivity.
  - destruct a; discriminate.
  - pose proof (last_solid c S) as Q. clear -Q S. destruct S as (D & _). destruct c as [|x c] using rev_ind; [contradiction|].
    change (a ++ 47%N :: c ++ [x]) with (a ++ (47%N :: c) ++ [x]). rewrite app_assoc, last_last. rewrite last_last in Q. exact Q.
Qed.
Lemma proper_solid l : Forall proper_name l -> Forall solid l.
Proof. intros H. eapply Forall_impl; [|exact H]. intros c (A & _ & _ & D). split; assumption. Qed.
Lemma Forall_skipn' {A} (P : A -> Prop) k l : Forall P l -> Forall P (skipn k l).
Proof. revert l. induction k; intros l H; [exact H|]. destruct H; simpl; [constructor|auto]. Qed.
Lemma relpath_ok cwd p start : isabs cwd = true -> p <> [] -> exists q, relpath cwd p start = Ok q /\ q <> [] /\ isabs q = false /\
  forall d, isabs d = true -> place d d = place cwd start -> place d q = place cwd p.
Proof.
  intros A NE. unfold relpath. destruct p as [|c0 p0]; [contradiction|]. clear NE. set (p := c0 :: p0) in *.
  destruct (abspath_parts cwd start A) as (-> & Fa & _). destruct (abspath_parts cwd p A) as (-> & Fb & _).
  set (a := place cwd start) in *. set (b := place cwd p) in *. destruct (common_prefix a b) as (E & La & Lb). set (i := common a b) in *.
  set (rel := repeat dotdot (length a - i) ++ skipn i b).
  assert (SO : Forall solid rel).
  { unfold rel. apply Forall_app. split; [|apply Forall_skipn', proper_solid, Fb]. apply Forall_forall. intros x I. apply repeat_spec in I. subst x.
    split; [discriminate|]. intros H. vm_compute in H. repeat (destruct H as [H|H]; [discriminate|]). exact H. }
  assert (W : fold_left walk rel a = b).
  { unfold rel. rewrite fold_walk_app, walk_up. rewrite walk_proper by (apply Forall_skipn', Fb). replace (length a - (length a - i)) with i by lia. rewrite E. apply firstn_skipn. }
  destruct rel as [|x r] eqn:R.
  - exists dot. repeat split; try reflexivity; try discriminate. intros d D P. unfold place at 1. change (isabs dot) with false. cbn [split_slash].
    simpl in W. rewrite <- W. unfold place in P. rewrite D in P. change (fold_left walk (split_slash d) []) with (fold_left walk (split_slash d) []) in P.
    change (split_slash dot) with [dot]. cbn [fold_left]. change (walk ?z dot) with z. rewrite <- P. unfold place. rewrite ?D. reflexivity.
  - inversion SO as [|? ? Sx Sr]; subst. exists (fold_left path_join r x). rewrite (join_solid r Sr x (proj1 Sx) (last_solid x Sx)).
    assert (PC : pieces (join_slash (x :: r)) (x :: r)).
    { apply join_pieces; [discriminate|]. intros y I. rewrite Forall_forall in SO. apply (SO y I). }
    assert (HD : isabs (join_slash (x :: r)) = false /\ join_slash (x :: r) <> []).
    { destruct Sx as (D & N). destruct x as [|y x]; [contradiction|]. assert (Y : N.eqb y slash = false) by (apply N.eqb_neq; intros ->; apply N; left; reflexivity).
      destruct r; (split; [exact Y|discriminate]). }
    split; [reflexivity|]. split; [apply HD|]. split; [apply HD|]. intros d D P. unfold place at 1. match goal with |- context [isabs ?z] => replace (isabs z) with false by (symmetry; apply HD) end. match goal with |- context [split_slash (join_slash ?z)] => replace (split_slash (join_slash z)) with z by (symmetry; apply split_is, PC) end.
    unfold place at 1 in P. rewrite D in P. rewrite P. exact W.
Qed.

(** ** Relation to the specification *)
Lemma leads_place cwd p : isabs cwd = true -> forall at_, leads [] cwd at_ -> leads at_ p (place cwd p).
Proof.
  intros A at_ L. assert (E : at_ = fold_left walk (split_slash cwd) []).
  { destruct L as [q l -> P ->|l N P ->]; [rewrite (split_is _ _ P); reflexivity|rewrite (split_is _ _ P); reflexivity]. }
  unfold place. destruct (isabs p) eqn:B.
  - destruct p as [|c q]; [discriminate|]. simpl in B. apply N.eqb_eq in B. subst c. eapply leads_abs; [reflexivity|apply split_pieces|reflexivity].
  - eapply leads_rel; [|apply split_pieces|rewrite E; reflexivity]. intros q ->. discriminate.
Qed.
Lemma leads_fun at_ p a b : leads at_ p a -> leads at_ p b -> a = b.
Proof.
  intros [q l E P ->|l N P ->] [q' l' E' P' ->|l' N' P' ->]; try (rewrite (pieces_fun _ _ P _ P'); reflexivity); [exfalso; exact (N' q E)|exfalso; exact (N q' E')].
Qed.
Lemma absolute_abs p : absolute p <-> isabs p = true.
Proof. split; [intros (q & ->); reflexivity|destruct p as [|c p]; [discriminate|]; simpl; intros E; apply N.eqb_eq in E; subst; exists p; reflexivity]. Qed.
Lemma leads_root d : isabs d = true -> leads [] d (place d d).
Proof.
  intros A. destruct d as [|c d]; [discriminate|]. simpl in A. apply N.eqb_eq in A. subst c. unfold place. cbn [isabs].
  eapply leads_abs; [reflexivity|apply split_pieces|reflexivity].
Qed.
Lemma place_abspath cwd p : isabs cwd = true -> place (abspath cwd p) (abspath cwd p) = place cwd p.
Proof.
  intros A. destruct (abspath_parts cwd p A) as (E & F & G). unfold place at 1. rewrite G.
  assert (W : forall l x, fold_left walk l x = fold_left walk (filter full l) x).
  { induction l as [|c l IH]; intros x; [reflexivity|]. simpl. destruct c; simpl; apply IH. }
  rewrite W. change (filter full (split_slash (abspath cwd p))) with (parts (abspath cwd p)). rewrite E. exact (walk_proper _ F []).
Qed.
Lemma abspath_leads cwd p at_ : absolute cwd -> leads [] cwd at_ -> exists to, leads at_ p to /\ parts (abspath cwd p) = to /\ leads [] (abspath cwd p) to.
Proof.
  intros A L. apply absolute_abs in A. destruct (abspath_parts cwd p A) as (E & F & G). exists (place cwd p). split; [apply leads_place; assumption|]. split; [exact E|].
  rewrite <- (place_abspath cwd p A). apply leads_root, G.
Qed.
Lemma relpath_leads cwd p base at_ dir to : absolute cwd -> leads [] cwd at_ -> p <> [] -> leads at_ base dir -> leads at_ p to ->
  exists q, relpath cwd p base = Ok q /\ leads dir q to /\ forall r, q <> 47%N :: r.
Proof.
  intros A L NE B T. apply absolute_abs in A. destruct (relpath_ok cwd p base A NE) as (q & E & _ & R & W). exists q. split; [exact E|].
  destruct (abspath_parts cwd base A) as (_ & _ & G).
  assert (D : dir = place cwd base) by (eapply leads_fun; [exact B|apply leads_place; assumption]).
  assert (T' : to = place cwd p) by (eapply leads_fun; [exact T|apply leads_place; assumption]).
  split; [|intros r ->; discriminate]. subst. rewrite <- (W (abspath cwd base) G (place_abspath cwd base A)).
  apply leads_place; [exact G|]. rewrite <- (place_abspath cwd base A). apply leads_root, G.
Qed.
