(** Proofs for C65: the form of a normal path. *)
From Verif Require Import PyBase PyBaseFacts Model_Path Spec_Path Proof_Path.
From Verif Require Model_Printout.
Local Open Scope nat_scope.

Lemma slashes_kept p : slashes_of p (initial_slashes p).
Proof.
  unfold slashes_of. destruct p as [|a [|b [|c p]]]; cbn [initial_slashes].
  - split; [lia|]. split; [split; [intros _ q; discriminate|reflexivity]|]. split; [discriminate|intros (q & E & _); discriminate].
  - destruct (N.eqb_spec a slash) as [->|Na]; (split; [lia|]); (split; [split|split]); try discriminate; try (intros _ q E; injection E as ->; apply Na; reflexivity); auto.
    + intros H. exfalso. apply (H []). reflexivity.
    + intros (q & E & _). discriminate.
    + intros (q & E & _). discriminate.
  - destruct (N.eqb_spec a slash) as [->|Na]; [destruct (N.eqb_spec b slash) as [->|Nb]|]; (split; [lia|]); (split; [split|split]); try discriminate; auto.
    + intros H. exfalso. apply (H [slash]). reflexivity.
    + intros _. exists []. split; [reflexivity|]. intros r; discriminate.
    + intros H. exfalso. apply (H [b]). reflexivity.
    + intros (q & E & _). injection E as E1 E2. exfalso. apply Nb. exact E1.
    + intros _ q E. injection E as -> E2. apply Na. reflexivity.
    + intros (q & E & _). injection E as -> E2. exfalso. apply Na. reflexivity.
  - destruct (N.eqb_spec a slash) as [->|Na].
    + destruct (N.eqb_spec b slash) as [->|Nb]; [destruct (N.eqb_spec c slash) as [->|Nc]|]; cbn [andb negb]; (split; [lia|]); (split; [split|split]); try discriminate.
      * intros H. exfalso. eapply H. reflexivity.
      * intros (q & E & N1). injection E as <-. exfalso. eapply N1. reflexivity.
      * intros H. exfalso. eapply H. reflexivity.
      * intros _. exists (c :: p). split; [reflexivity|]. intros r E. injection E as -> _. apply Nc. reflexivity.
      * reflexivity.
      * intros H. exfalso. eapply H. reflexivity.
      * intros (q & E & N1). injection E as E1 E2. exfalso. apply Nb. exact E1.
    + split; [lia|]. split; [split|split]; try discriminate; auto.
      * intros _ q E. injection E as -> E2. apply Na. reflexivity.
      * intros (q & E & _). injection E as -> E2. exfalso. apply Na. reflexivity.
Qed.

Lemma norm_normal rooted l : (forall c, In c l -> ~ In 47%N c) -> forall ups names, Forall (eq dotdot) ups -> Forall solid_name names -> (rooted = true -> ups = []) ->
  normal_names rooted (norm_comps rooted (rev (ups ++ names)) l).
Proof.
  induction l as [|c l IH]; intros Hl ups names Hu Hn Hr; cbn [norm_comps].
  - rewrite rev_involutive. exists ups, names. auto.
  - assert (Hl' : forall x, In x l -> ~ In 47%N x) by (intros x Hx; apply Hl; right; assumption).
    destruct (str_dec c []) as [[-> E0]|[-> N0]]; [cbn [orb]; auto|]. destruct (str_dec c dot) as [[-> E1]|[-> N1]]; [cbn [orb]; auto|]. cbn [orb].
    destruct (str_dec c dotdot) as [[-> E2]|[-> N2]]; cbn [negb orb].
    + subst c. destruct names as [|x names] using rev_ind; [|clear IHnames].
      * rewrite app_nil_r. destruct ups as [|u ups] using rev_ind; [|clear IHups].
        -- cbn [rev]. destruct rooted; cbn [negb andb orb tl].
           ++ apply (IH Hl' [] []); auto.
           ++ apply (IH Hl' [dotdot] []); auto. discriminate.
        -- rewrite rev_app_distr. cbn [rev app]. destruct (str_dec u dotdot) as [[-> Eu]|[_ Nu]].
           2: { exfalso. apply Nu. symmetry. rewrite Forall_forall in Hu. apply Hu. apply in_app_iff. right. left. reflexivity. }
           rewrite orb_true_r. destruct rooted; [specialize (Hr eq_refl); destruct ups; discriminate|].
           assert (Er : dotdot :: u :: rev ups = rev (((ups ++ [u]) ++ [dotdot]) ++ [])) by (rewrite app_nil_r, !rev_unit; reflexivity). unfold pystr in *. rewrite Er.
           apply (IH Hl' ((ups ++ [u]) ++ [dotdot]) []); auto; [|discriminate]. apply Forall_app. auto.
      * rewrite app_assoc, rev_app_distr. cbn [rev app]. apply Forall_app in Hn. destruct Hn as [Hn Hx]. inversion Hx as [|? ? (X1 & X2 & X3 & X4)]; subst.
        destruct (str_dec x dotdot) as [[_ Ex]|[-> Nx]]; [contradiction|]. rewrite andb_false_r. cbn [orb tl]. apply (IH Hl'); auto.
    + assert (Er : c :: rev (ups ++ names) = rev (ups ++ (names ++ [c]))) by (rewrite app_assoc, rev_unit; reflexivity). unfold pystr in *. rewrite Er.
      apply (IH Hl' ups (names ++ [c])); auto. apply Forall_app. split; [assumption|]. constructor; [|constructor]. unfold solid_name. repeat split; auto. apply Hl. left. reflexivity.
Qed.
Lemma normal_form p : exists k names, slashes_of p k /\ normal_names (negb (Nat.eqb k 0)) names /\
  normpath p = match k, names with O, [] => s "." | _, _ => repeat 47%N k ++ List.concat (match names with [] => [] | x :: r => x :: map (cons 47%N) r end) end.
Proof.
  exists (initial_slashes p), (norm_comps (negb (Nat.eqb (initial_slashes p) 0)) [] (split_slash p)).
  split; [apply slashes_kept|].
  assert (Nn : normal_names (negb (Nat.eqb (initial_slashes p) 0)) (norm_comps (negb (Nat.eqb (initial_slashes p) 0)) [] (split_slash p))).
  { apply (norm_normal _ _ (no_slash_pieces p _ (split_pieces p)) [] []); auto. }
  split; [exact Nn|]. destruct p as [|a p]; [reflexivity|]. unfold normpath.
  assert (J : forall l, join_slash l = List.concat (match l with [] => [] | x :: r => x :: map (cons 47%N) r end)).
  { intros [|x l]; [reflexivity|]. cbn [List.concat]. revert x. induction l as [|y l IH]; intros x; [cbn; rewrite app_nil_r; reflexivity|].
    cbn [map List.concat]. change (join_slash (x :: y :: l)) with (x ++ [47%N] ++ join_slash (y :: l)). rewrite IH. reflexivity. }
  rewrite J. destruct (initial_slashes (a :: p)) as [|k]; [|reflexivity]. cbn [repeat app].
  destruct (norm_comps (negb (0 =? 0)) [] (split_slash (a :: p))) as [|x l]; [reflexivity|].
  destruct Nn as (ups & names & E & Hu & Hn & _). assert (Nx : x <> []).
  { destruct ups as [|u ups]; cbn in E; [destruct names as [|n names]; [discriminate|]|].
    - injection E as -> _. inversion Hn as [|? ? (X1 & _)]; subst. exact X1.
    - injection E as -> _. inversion Hu; subst. discriminate. }
  destruct x; [contradiction|]. reflexivity.
Qed.
