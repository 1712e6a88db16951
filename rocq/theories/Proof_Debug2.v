(** Proofs about Model_Debug.v: the numbers among what is printed. *)
From Verif Require Import PyBase Model_Text Model_Heap Model_Layer Model_Types Model_Msgpack Model_Codec Model_Debug Spec_Debug.
Local Open Scope Z_scope.

Fixpoint good (P : line -> Prop) (p : prog) : Prop :=
  match p with Done | Raise _ => True | Print l k => P l /\ good P k | Next k => forall o, good P (k o) end.
Lemma good_run P p : good P p -> forall bs, Forall P (fst (run p bs)).
Proof.
  induction p as [|e|l k IH|k IH]; intros G bs; cbn [run good] in *; [constructor|constructor| |].
  - destruct (run k bs) as [o r] eqn:E. constructor; [apply G|]. pose proof (IH (proj2 G) bs) as H. rewrite E in H. exact H.
  - destruct (unpack1 bs) as [[o r]|e]; [apply IH, G|constructor].
Qed.
Definition numbered (l : line) : Prop := counts l -> exists a, ln_args l = [a] /\ number a.
Local Ltac other := let H := fresh in intros H; exfalso; unfold counts in H; cbn [ln_format] in H; destruct H as [H|[H|[H|[]]]]; vm_compute in H; discriminate.
Lemma good_number f o k : good numbered k -> good numbered (print_number f o k).
Proof. intros G. destruct o; cbn [print_number good]; auto; (split; [|exact G]); intros _; eexists; (split; [reflexivity|constructor]). Qed.
Lemma good_title x k : ~ counts (mkLine x []) -> good numbered k -> good numbered (title x k).
Proof. intros H G. split; [intros C; destruct (H C)|exact G]. Qed.
Lemma good_columns cols k : good numbered k -> good numbered (debug_columns cols k).
Proof. intros G. induction cols as [|c r IH]; cbn [debug_columns good]; [exact G|]. split; [other|]. intros sp. split; [other|]. intros col. split; [other|exact IH]. Qed.
Lemma good_fields n : forall acc k, (forall l, good numbered (k l)) -> good numbered (debug_fields n acc k).
Proof.
  induction n as [|n IH]; intros acc k G; cbn [debug_fields good]; [apply G|]. intros name has ty. destruct (truthy has); cbn [good].
  - intros args. split; [other|apply IH, G].
  - split; [other|apply IH, G].
Qed.
Lemma good_schema types : forall sch k, (forall x, good numbered (k x)) -> good numbered (debug_schema types sch k).
Proof.
  induction types as [|ty r IH]; intros sch k G; cbn [debug_schema good]; [apply G|]. split; [other|]. intros num.
  assert (F : forall n, good numbered (debug_fields n [] (fun fs => match ty with MStr x => debug_schema r (dset sch x fs) k | MArr _ | MMap _ => Raise TypeError | _ => Raise Unmodelled end))).
  { intros n. apply good_fields. intros fs. destruct ty; cbn [good]; auto. }
  destruct num; cbn [good]; auto.
Qed.
Lemma good_layers types sch : good numbered (debug_layers types sch).
Proof.
  induction types as [|ty r IH]; cbn [debug_layers good]; [exact Logic.I|]. split; [other|]. intros size num. apply good_number, good_number.
  destruct ty; cbn [good]; auto. destruct (dget sch x); cbn [good]; auto. now apply good_columns.
Qed.
Lemma good_texts d k : good numbered k -> good numbered (debug_texts d k).
Proof. intros G. induction d as [|[x v] r IH]; cbn [debug_texts good]; [exact G|]. split; [other|exact IH]. Qed.
Local Ltac head := intros H; unfold counts in H; cbn [ln_format] in H; destruct H as [H|[H|[H|[]]]]; vm_compute in H; discriminate.
Theorem debug_numbers bs l : In l (fst (debug bs)) -> counts l -> exists a, ln_args l = [a] /\ number a.
Proof.
  intros I. assert (G : good numbered (debug_prog (firstn 4 bs))).
  { unfold debug_prog. apply good_title; [head|]. split; [other|]. apply good_title; [head|]. intros _ props. split; [other|]. apply good_title; [head|]. intros types. split; [other|]. apply good_title; [head|].
    destruct (elements types) as [ts|e]; [|exact Logic.I]. apply good_schema. intros sch. apply good_title; [head|]. intros size. apply good_number. intros texts. destruct texts; cbn [good]; auto.
    apply good_texts, good_title; [head|apply good_layers]. }
  pose proof (good_run _ _ G (skipn 4 bs)) as F. rewrite Forall_forall in F. exact (F l I).
Qed.
