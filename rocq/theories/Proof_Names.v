(** Proofs for C98: the names of the types. *)
From Verif Require Import PyBase PyBaseFacts Model_Heap Model_Layer Model_Types Model_Codec Model_JLayer Model_JCodec Model_JEncode Spec_Layer Spec_Names Proof_JLayer2.
Local Open Scope Z_scope.

Lemma names_of t x : jname_string t = Ok x <-> In (t, x) wire_names.
Proof.
  split.
  - destruct t as [|t|]; [|destruct t|]; intros H; vm_compute in H; try discriminate; injection H as <-; vm_compute; tauto.
  - intros H. unfold wire_names in H. repeat (destruct H as [H|H]; [injection H as <- <-; reflexivity|]). destruct H.
Qed.
Lemma python_names t x : type_string t = Ok x <-> In (JT t, x) wire_names.
Proof. rewrite <- names_of. reflexivity. Qed.
Lemma names_nodup : NoDup (map snd wire_names).
Proof. vm_compute. repeat constructor; simpl; intros H; repeat (destruct H as [H|H]; [discriminate|]); exact H. Qed.
Lemma find_name x : string_type x = match find (fun t => match type_string t with Ok y => str_eqb x y | Err _ => false end) all_types with Some t => Ok t | None => Err KeyError end.
Proof. reflexivity. Qed.
Lemma string_type_names t x : string_type x = Ok t <-> In (JT t, x) wire_names.
Proof.
  split.
  - rewrite find_name. destruct (find _ all_types) as [u|] eqn:E; [|discriminate]. intros H. injection H as <-. apply find_some in E. destruct E as [_ E].
    apply python_names. destruct (type_string u) as [y|]; [|discriminate]. apply PyBaseFacts.str_eqb_eq in E. subst. reflexivity.
  - intros H. apply python_names in H. destruct t; vm_compute in H; try discriminate; injection H as <-; vm_compute; reflexivity.
Qed.
Lemma string_type_none x e : string_type x = Err e <-> e = KeyError /\ forall t, ~ In (JT t, x) wire_names.
Proof.
  split.
  - intros H. split.
    + rewrite find_name in H. destruct (find _ all_types); congruence.
    + intros t Ht. apply string_type_names in Ht. congruence.
  - intros [-> H]. rewrite find_name. destruct (find _ all_types) as [u|] eqn:E; [|reflexivity]. exfalso. apply (H u). apply string_type_names. rewrite find_name, E. reflexivity.
Qed.
Lemma names_read x t : jname_from x = t <-> In (t, x) wire_names \/ t = JTMissing /\ ~ In x (map snd wire_names).
Proof.
  unfold jname_from. destruct (str_eqb x (s "nil")) eqn:En.
  - apply PyBaseFacts.str_eqb_eq in En. subst x. split.
    + intros <-. left. left. reflexivity.
    + intros [H|[_ H]]; [|exfalso; apply H; left; reflexivity]. unfold wire_names in H. repeat (destruct H as [H|H]; [first [injection H as <-; reflexivity|discriminate H]|]). destruct H.
  - assert (Nn : x <> s "nil") by (intros ->; vm_compute in En; discriminate).
    destruct (string_type x) as [u|e] eqn:E.
    + apply string_type_names in E. split; [intros <-; left; assumption|]. intros [H|[_ H]].
      * destruct t as [|t|].
        -- exfalso. apply Nn. unfold wire_names in H. destruct H as [H|H]; [congruence|]. repeat (destruct H as [H|H]; [discriminate|]). destruct H.
        -- f_equal. apply string_type_names in E, H. congruence.
        -- unfold wire_names in H. repeat (destruct H as [H|H]; [discriminate|]). destruct H.
      * exfalso. apply H. apply in_map_iff. exists (JT u, x). auto.
    + apply string_type_none in E. destruct E as [-> E]. split.
      * intros <-. right. split; [reflexivity|]. intros H. apply in_map_iff in H. destruct H as ([[|t|] y] & Ey & H); cbn in Ey; subst y.
        -- apply Nn. unfold wire_names in H. destruct H as [H|H]; [congruence|]. repeat (destruct H as [H|H]; [discriminate|]). destruct H.
        -- apply (E t H).
        -- unfold wire_names in H. repeat (destruct H as [H|H]; [discriminate|]). destruct H.
      * intros [H|[-> _]]; [|reflexivity]. destruct t as [|t|]; [|exfalso; apply (E t H)|reflexivity].
        exfalso. apply Nn. unfold wire_names in H. destruct H as [H|H]; [congruence|]. repeat (destruct H as [H|H]; [discriminate|]). destruct H.
Qed.

(** ** get of a layer *)
Lemma get_exact h l : layer_ok h l -> forall i,
  (forall e, jl_get h l i = Err e <-> e = IndexError /\ ~ (0 <= i < zlen (l_nodesof h l))) /\
  (jl_get h l i = Ok None <-> 0 <= i < zlen (l_nodesof h l) /\ forall n, In n (content h l) -> n_idof h n <> i).
Proof.
  intros O i. destruct (reading h l O) as (_ & _ & _ & _ & _ & _ & R1 & R2).
  unfold zlen in *.
  assert (In_ : 0 <= i < Z.of_nat (length (l_nodesof h l)) -> exists x, jl_get h l i = Ok x).
  { intros B. unfold jl_get, java_get. destruct (Z.leb_spec 0 i); [|lia]. destruct (nth_error (l_nodesof h l) (Z.to_nat i)) eqn:E; [eauto|]. apply nth_error_None in E. lia. }
  assert (Out : ~ (0 <= i < Z.of_nat (length (l_nodesof h l))) -> jl_get h l i = Err IndexError).
  { intros B. unfold jl_get, java_get. destruct (Z.leb_spec 0 i); [|reflexivity]. destruct (nth_error (l_nodesof h l) (Z.to_nat i)) eqn:E; [|reflexivity].
    exfalso. apply B. assert (nth_error (l_nodesof h l) (Z.to_nat i) <> None) by congruence. apply nth_error_Some in H0. lia. }
  assert (Dec : {0 <= i < Z.of_nat (length (l_nodesof h l))} + {~ (0 <= i < Z.of_nat (length (l_nodesof h l)))}) by (destruct (Z_le_dec 0 i); [destruct (Z_lt_dec i (Z.of_nat (length (l_nodesof h l)))); [left|right]|right]; lia).
  split.
  - intros e. destruct Dec as [B|B].
    + destruct (In_ B) as [x ->]. split; [discriminate|]. intros [_ N]. contradiction.
    + rewrite (Out B). split; [intros E; injection E as <-; auto|intros [-> _]; reflexivity].
  - destruct Dec as [B|B].
    + destruct (In_ B) as [x E]. split.
      * intros E'. split; [assumption|]. intros n Hn Hi. apply R1 in Hn. rewrite Hi in Hn. congruence.
      * intros [_ N]. destruct x as [n|]; [|assumption]. exfalso. destruct (R2 i n E) as [Hn Hi]. apply (N n Hn Hi).
    + rewrite (Out B). split; [discriminate|]. intros [B' _]. contradiction.
Qed.
