(** Proofs about int(), float(), str(): numbers and numerals. *)
From Verif Require Import PyBase PyBaseFacts Model_Text Model_Heap Model_Layer Model_Types Model_Query Model_Coerce Spec_Layer Spec_Query Spec_Coerce Proof_Query Proof_Query2.
From Verif Require Model_Printout Spec_Xml Proof_Xml.
From Coq Require Import QArith Qabs Qpower Lqa.
Local Open Scope Z_scope.

(** ** int(float) *)
Lemma zq_le a b : a <= b -> (inject_Z a <= inject_Z b)%Q.
Proof. rewrite Zle_Qle. auto. Qed.
Lemma zq_lt a b : a < b -> (inject_Z a < inject_Z b)%Q.
Proof. rewrite Zlt_Qlt. auto. Qed.
Lemma zq_0 : (inject_Z 0 == 0)%Q.
Proof. reflexivity. Qed.
Lemma at_scale a k : 0 <= k -> (inject_Z a == inject_Z (a * 2 ^ k) * pow2 (- k))%Q.
Proof.
  intros L. pose proof (scale a 0 (- k) ltac:(lia)) as S. replace (0 - - k) with k in S by lia. rewrite <- S. unfold pow2. cbn. ring.
Qed.
Lemma whole_truncate m e : whole (inject_Z m * pow2 e) (truncate m e).
Proof.
  unfold truncate. destruct (Z.leb_spec 0 e) as [L|L].
  - assert (E : (inject_Z m * pow2 e == inject_Z (m * 2 ^ e))%Q) by (rewrite (scale m e 0) by lia; rewrite Z.sub_0_r; unfold pow2; cbn; ring).
    unfold whole. rewrite E. set (z := m * 2 ^ e). clearbody z. destruct (Z.le_gt_cases 0 z); [left|right]; rewrite <- zq_0; repeat split; first [apply zq_le; lia|apply zq_lt; lia|apply Qle_refl].
  - set (k := - e). assert (Hk : 0 <= k) by lia. replace e with (- k) by lia. clearbody k. assert (P := pow2_pos (- k)). assert (P2 : 0 < 2 ^ k) by (apply Z.pow_pos_nonneg; lia).
    assert (Up : forall a, (inject_Z a < inject_Z m * pow2 (- k))%Q <-> a * 2 ^ k < m).
    { intros a. rewrite (at_scale a k Hk). rewrite (Qmult_lt_r _ _ _ P). rewrite <- Zlt_Qlt. reflexivity. }
    assert (Lo : forall a, (inject_Z m * pow2 (- k) < inject_Z a)%Q <-> m < a * 2 ^ k).
    { intros a. rewrite (at_scale a k Hk). rewrite (Qmult_lt_r _ _ _ P). rewrite <- Zlt_Qlt. reflexivity. }
    assert (UpE : forall a, (inject_Z a <= inject_Z m * pow2 (- k))%Q <-> a * 2 ^ k <= m).
    { intros a. rewrite (at_scale a k Hk). rewrite (Qmult_le_r _ _ _ P). rewrite <- Zle_Qle. reflexivity. }
    assert (LoE : forall a, (inject_Z m * pow2 (- k) <= inject_Z a)%Q <-> m <= a * 2 ^ k).
    { intros a. rewrite (at_scale a k Hk). rewrite (Qmult_le_r _ _ _ P). rewrite <- Zle_Qle. reflexivity. }
    pose proof (Z.quot_rem' m (2 ^ k)) as QR. set (q := Z.quot m (2 ^ k)) in *. unfold whole. destruct (Z.le_gt_cases 0 m) as [Hm|Hm].
    + pose proof (Z.rem_bound_pos m (2 ^ k) Hm P2). left. split; [apply (proj2 (UpE 0)); lia|]. split; [apply UpE|apply Lo]; nia.
    + pose proof (Z.rem_bound_pos (- m) (2 ^ k) ltac:(lia) P2) as B. rewrite Z.rem_opp_l in B by lia. right. split; [apply (proj2 (LoE 0)); lia|]. split; [apply Up|apply LoE]; nia.
Qed.
Lemma whole_eq q q' i : (q == q')%Q -> whole q i -> whole q' i.
Proof. unfold whole. intros E. rewrite E. auto. Qed.
(** every float of 64 bits is a number, an infinity or a NaN *)
Lemma float_cases b : (b < 2 ^ 64)%N ->
  (exists x m e, number (VFloat b) x /\ dbl_of b = DFin m e /\ (x == inject_Z m * pow2 e)%Q) \/
  (exists g, infinite g (VFloat b) /\ dbl_of b = DInf (negb g)) \/ (nan (VFloat b) /\ dbl_of b = DNan).
Proof.
  intros L. set (z := Z.of_N b). assert (Hz : 0 <= z < 2 ^ 64) by (split; [lia|change (2 ^ 64) with (Z.of_N (2 ^ 64)); lia]).
  set (fr := z mod 2 ^ 52). set (u := z / 2 ^ 52). assert (Hf : 0 <= fr < 2 ^ 52) by (apply Z.mod_pos_bound; reflexivity).
  assert (Hu : 0 <= u < 4096) by (split; [apply Z.div_pos; lia|apply Z.div_lt_upper_bound; [reflexivity|exact (proj2 Hz)]]).
  assert (Ez : z = u * 2 ^ 52 + fr) by (unfold u, fr; rewrite Z.mul_comm; apply Z.div_mod; discriminate).
  set (g := u / 2048). set (ex := u mod 2048). assert (He : 0 <= ex < 2048) by (apply Z.mod_pos_bound; reflexivity).
  assert (Hg : g = 0 \/ g = 1). { assert (0 <= g < 2) by (split; [apply Z.div_pos; lia|apply Z.div_lt_upper_bound; lia]). lia. }
  assert (Eu : u = g * 2048 + ex) by (unfold g, ex; rewrite Z.mul_comm; apply Z.div_mod; discriminate).
  assert (Eb : Z.of_N b = (g * 2048 + ex) * 2 ^ 52 + fr) by (rewrite <- Eu; exact Ez). clearbody g ex fr. clear Ez Eu Hu u Hz z.
  destruct (Z.eq_dec ex 2047) as [->|N].
  - right. destruct (Z.eq_dec fr 0) as [->|F].
    + left. destruct Hg as [->| ->].
      * exists true. assert (I : infinite true (VFloat b)) by (constructor; rewrite Eb; ring). split; [exact I|]. apply inf_num in I. cbn [num_of] in I. congruence.
      * exists false. assert (I : infinite false (VFloat b)) by (constructor; rewrite Eb; ring). split; [exact I|]. apply inf_num in I. cbn [num_of] in I. congruence.
    + right. assert (I : nan (VFloat b)) by (apply (nan_intro g fr); [exact Hg|lia|exact Eb]). split; [exact I|]. apply nan_num in I. cbn [num_of] in I. congruence.
  - left. assert (exists x, number (VFloat b) x) as [x H].
    { destruct (Z.eq_dec ex 0) as [->|N0]; eexists; [eapply (nu_small g fr); [exact Hg|exact Hf|rewrite Eb; ring]|eapply (nu_normal g ex fr); [exact Hg|lia|exact Hf|exact Eb]]. }
    destruct (number_num _ _ H) as (m & e & E1 & E2). exists x, m, e. cbn [num_of] in E1. split; [exact H|]. split; [congruence|exact E2].
Qed.
