From Verif Require Import PyBase PyBaseFacts Model_Collection Spec_Registry.
Lemma reg_sim os : forall g m, NoDup (dkeys g) -> (forall x, dget g x = m x) -> let (g1, a) := reg_run g os in let (m1, b) := map_run m os in a = b /\ (forall x, dget g1 x = m1 x) /\ NoDup (dkeys g1).
Proof.
  induction os as [|o os IH]; intros g m ND E; [cbn; auto|]. cbn [reg_run map_run].
  assert (S : let (g1, a) := reg_step g o in let (m1, b) := map_step m o in a = b /\ (forall x, dget g1 x = m1 x) /\ NoDup (dkeys g1)).
  { destruct o as [x c d n|x|x b]; cbn [reg_step map_step].
    - unfold register_codec, dmem. rewrite (E x). destruct (m x) eqn:M; [auto|]. split; [reflexivity|]. split.
      + intros y. unfold put. rewrite dget_dset. destruct (str_eqb y x); auto.
      + apply NoDup_dset. exact ND.
    - unfold unregister_codec, dmem. rewrite (E x). destruct (m x) eqn:M; [|auto]. split; [reflexivity|]. split.
      + intros y. unfold put. destruct (str_eqb_spec y x) as [->|NE]; [apply dget_ddel_same, ND|]. rewrite dget_ddel_other by congruence. apply E.
      + apply NoDup_ddel, ND.
    - unfold get_codec, dmem. rewrite (E x). split; [|auto]. destruct b, (m x); reflexivity. }
  destruct (reg_step g o) as [g1 a], (map_step m o) as [m1 b]. destruct S as (-> & E1 & N1). specialize (IH g1 m1 N1 E1).
  destruct (reg_run g1 os) as [g2 l], (map_run m1 os) as [m2 l']. destruct IH as (-> & A & B). auto.
Qed.
Lemma reg_history os : snd (reg_run [] os) = snd (map_run (fun _ => None) os) /\ forall x, dget (fst (reg_run [] os)) x = fst (map_run (fun _ => None) os) x.
Proof.
  pose proof (reg_sim os [] (fun _ => None) (NoDup_nil _) (fun _ => eq_refl)) as S. destruct (reg_run [] os), (map_run (fun _ => None) os). cbn. tauto.
Qed.
