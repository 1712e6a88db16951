(** Proofs about infinities and NaNs. *)
From Verif Require Import PyBase PyBaseFacts Model_Heap Model_Layer Model_Text Model_Types Model_Query Spec_Query Proof_Query.
Local Open Scope Z_scope.
Lemma inf_num s v : infinite s v -> num_of v = Some (DInf (negb s)).
Proof.
  destruct 1 as [bits E|bits E]; cbn [num_of]; unfold dbl_of; rewrite E; reflexivity.
Qed.
Lemma nan_num v : nan v -> num_of v = Some DNan.
Proof.
  intros [g fr bits Hg Hf E]. destruct (bits_parts g 2047 fr _ Hg ltac:(lia) ltac:(lia) E) as (B1 & B2 & B3). cbn [num_of]. unfold dbl_of. cbv zeta. rewrite B1, B2, B3.
  change (2047 =? 2047) with true. cbv iota. destruct (Z.eqb_spec fr 0); [lia|reflexivity].
Qed.
Section Same.
Variable same : value -> value -> bool.
Lemma inf_fin h n f o s x v : infinite s (fget h n f) -> number v x ->
  sat same h (POrd o f v) n = Ok (ord_of o (if s then Gt else Lt)) /\ sat same h (PEq f v) n = Ok false.
Proof.
  intros I N. apply inf_num in I. apply number_num in N. destruct N as (m & e & N & _). cbn [sat]. unfold py_ord, py_eq. rewrite I, N. destruct s; split; reflexivity.
Qed.
Lemma fin_inf h n f o s x v : number (fget h n f) x -> infinite s v ->
  sat same h (POrd o f v) n = Ok (ord_of o (if s then Lt else Gt)) /\ sat same h (PEq f v) n = Ok false.
Proof.
  intros N I. apply inf_num in I. apply number_num in N. destruct N as (m & e & N & _). cbn [sat]. unfold py_ord, py_eq. rewrite I, N. destruct s; split; reflexivity.
Qed.
Lemma inf_inf h n f o s s' v : infinite s (fget h n f) -> infinite s' v ->
  sat same h (POrd o f v) n = Ok (ord_of o (if Bool.eqb s s' then Eq else if s then Gt else Lt)) /\ sat same h (PEq f v) n = Ok (Bool.eqb s s').
Proof.
  intros I J. apply inf_num in I, J. cbn [sat]. unfold py_ord, py_eq. rewrite I, J. destruct s, s'; split; reflexivity.
Qed.
Lemma numeric_num v : numeric v -> exists d, num_of v = Some d.
Proof.
  intros [(x & H)|[(s & H)|H]]; [apply number_num in H; destruct H as (m & e & H & _)|apply inf_num in H|apply nan_num in H]; eauto.
Qed.
Lemma nan_any h n f o v : (nan (fget h n f) /\ numeric v) \/ (numeric (fget h n f) /\ nan v) ->
  sat same h (POrd o f v) n = Ok false /\ sat same h (PEq f v) n = Ok false /\ sat same h (PNeq f v) n = Ok true.
Proof.
  intros H.
  assert (E : exists d d', num_of (fget h n f) = Some d /\ num_of v = Some d' /\ num_cmp d d' = None).
  { destruct H as [[A B]|[A B]]; apply nan_num in A || apply numeric_num in A; apply nan_num in B || apply numeric_num in B.
    - destruct B as (d & B). exists DNan, d. repeat split; assumption.
    - destruct A as (d & A). exists d, DNan. repeat split; try assumption. destruct d as [|[]|]; reflexivity. }
  destruct E as (d & d' & A & B & C). cbn [sat].
  assert (Q : py_eq same (fget h n f) v = false) by (unfold py_eq; rewrite A, B, C; reflexivity).
  split; [unfold py_ord; rewrite A, B, C; reflexivity|]. split; [rewrite Q; reflexivity|].
  unfold py_ne. destruct (fget h n f); try discriminate A; rewrite Q; reflexivity.
Qed.
End Same.
