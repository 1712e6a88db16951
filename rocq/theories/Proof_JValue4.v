(** Making and comparing values in the Java port; document values. *)
From Verif Require Import PyBase PyBaseFacts Model_Text Model_Heap Model_Layer Model_Types Model_JUnits Model_JCodec Model_JEncode Model_JEdit Model_JValue Model_JValue2
  Spec_JCodec Spec_JEncode Spec_JValue Spec_JValue2 Proof_JEncode3 Proof_JValue2.
Local Open Scope Z_scope.

(** ** Values.get *)
Lemma one_layer_ok x q : one_layer x q = Ok tt <-> exists is, q = map (fun i => Some (x, i)) is.
Proof.
  induction q as [|[[y k]|] q IH]; cbn [one_layer].
  - split; [intros _; exists []; reflexivity|reflexivity].
  - destruct (str_eqb y x) eqn:Q.
    + apply str_eqb_eq in Q. subst y. rewrite IH. split; intros (is & E).
      * exists (k :: is). rewrite E. reflexivity.
      * destruct is as [|a is]; [discriminate|]. cbn in E. injection E as <- E. exists is. exact E.
    + split; [discriminate|]. intros (is & E). destruct is as [|a is]; [discriminate|]. cbn in E. injection E as E _ _. subst y. rewrite str_eqb_refl in Q. discriminate.
  - split; [discriminate|]. intros (is & E). destruct is; discriminate.
Qed.
Lemma array_ok l m : array_value l = Ok m <-> exists x is, is <> [] /\ l = map (fun i => Some (x, i)) is /\ m = MNodes l.
Proof.
  destruct l as [|[[x i]|] r].
  - split; [discriminate|]. intros (x & is & N & E & _). destruct is; [congruence|discriminate].
  - unfold array_value. generalize (one_layer_ok x (Some (x, i) :: r)). destruct (one_layer x (Some (x, i) :: r)) as [[]|e]; cbn [rbind]; intros K.
    + destruct (proj1 K eq_refl) as (is & E). rewrite E. split.
      * intros H. injection H as <-. exists x, is. split; [intros ->; discriminate|auto].
      * intros (y & js & _ & _ & ->). reflexivity.
    + split; [discriminate|]. intros (y & is & N & E & M). destruct is as [|a is]; [congruence|]. cbn in E. injection E as <- <- E. assert (H : exists js, Some (x, i) :: r = map (fun i => Some (x, i)) js) by (exists (i :: is); cbn; rewrite E; reflexivity). apply K in H. discriminate.
  - split; [discriminate|]. intros (x & is & N & E & _). destruct is; [congruence|discriminate].
Qed.
Lemma list_ok l m : list_value l = Ok m <-> exists xs, Forall2 plain_element l xs /\ m = MNodes xs.
Proof.
  unfold list_value. set (f := fun e => match e with ENode x i => Ok (Some (x, i)) | ENull => Ok None | EOther => Err TypeError end).
  assert (F : forall l xs, mapM f l = Ok xs <-> Forall2 plain_element l xs).
  { clear. induction l as [|e l IH]; intros xs; cbn [mapM].
    - split; [intros H; injection H as <-; constructor|]. intros H. inversion H. reflexivity.
    - destruct e as [x i| |]; cbn [f rbind].
      + destruct (mapM f l) as [ys|] eqn:E; cbn [rbind].
        * split; [intros H; injection H as <-; constructor; [reflexivity|apply IH; reflexivity]|]. intros H. inversion H as [|? y ? ys' A B]; subst. cbn in A. subst y. apply IH in B. congruence.
        * split; [discriminate|]. intros H. inversion H as [|? y ? ys' A B]; subst. apply IH in B. discriminate.
      + destruct (mapM f l) as [ys|] eqn:E; cbn [rbind].
        * split; [intros H; injection H as <-; constructor; [reflexivity|apply IH; reflexivity]|]. intros H. inversion H as [|? y ? ys' A B]; subst. cbn in A. subst y. apply IH in B. congruence.
        * split; [discriminate|]. intros H. inversion H as [|? y ? ys' A B]; subst. apply IH in B. discriminate.
      + split; [discriminate|]. intros H. inversion H as [|? y ? ys' A B]; subst. destruct A. }
  destruct (mapM f l) as [xs|e] eqn:E; cbn [rbind].
  - split; [intros H; injection H as <-; exists xs; split; [apply F, E|reflexivity]|]. intros (ys & A & ->). apply F in A. congruence.
  - split; [discriminate|]. intros (ys & A & ->). apply F in A. congruence.
Qed.
Theorem made_of o m : get_value o = Ok m <-> boxed o m.
Proof.
  split.
  - destruct o as [|v|i|i|b|b| |x|x|b|l|[|[x i| |] r]|]; cbn [get_value]; intros H; try discriminate; try (injection H as <-; constructor).
    + apply array_ok in H. destruct H as (x & is & N & -> & ->). constructor. exact N.
    + apply list_ok in H. destruct H as (xs & F & ->). inversion F as [|? y ? ys A B]; subst. constructor; assumption.
  - intros H. destruct H; try reflexivity; cbn [get_value].
    + apply array_ok. eauto.
    + apply list_ok. exists (x :: xs). split; [constructor; [exact H|assumption]|reflexivity].
Qed.
Theorem made_error o e : get_value o = Err e -> In e [NotImplementedError; ValueError; AttributeError; TypeError].
Proof.
  assert (A : forall l, array_value l = Err e -> In e [NotImplementedError; ValueError; AttributeError; TypeError]).
  { assert (G : forall x q, one_layer x q = Err e -> e = AttributeError \/ e = ValueError).
    { intros x. induction q as [|[[y k]|] q IH]; cbn [one_layer]; [discriminate| |intros H; injection H as <-; auto]. destruct (str_eqb y x); [exact IH|]. intros H. injection H as <-. auto. }
    intros [|[[x i]|] r]; unfold array_value; [intros H; injection H as <-; cbn; auto| |intros H; injection H as <-; cbn; auto].
    destruct (one_layer x (Some (x, i) :: r)) eqn:E; cbn [rbind]; [discriminate|]. intros H. injection H as ->. destruct (G _ _ E) as [->| ->]; cbn; auto. }
  assert (B : forall l, list_value l = Err e -> In e [NotImplementedError; ValueError; AttributeError; TypeError]).
  { intros l. unfold list_value. set (f := fun e => match e with ENode x i => Ok (Some (x, i)) | ENull => Ok None | EOther => Err TypeError end).
    assert (G : forall q, mapM f q = Err e -> e = TypeError). { clear. induction q as [|[x i| |] q IH]; cbn [mapM f rbind]; [discriminate| | |intros H; injection H as <-; reflexivity]; (destruct (mapM f q); cbn [rbind]; [discriminate|]; intros H; apply IH; exact H). }
    destruct (mapM f l) eqn:E; cbn [rbind]; [discriminate|]. intros H. injection H as ->. rewrite (G _ E). cbn. auto. }
  destruct o as [|v|i|i|b|b| |x|x|b|l|[|[x i| |] r]|]; cbn [get_value]; intros H; try discriminate; try (injection H as <-; cbn; auto); eauto.
Qed.

(** ** equality *)
Lemma not_nan b : is_double b -> (Z.of_N b mod 2 ^ 63 <=? 2047 * 2 ^ 52) = true <-> ~ nan b.
Proof.
  intros D. destruct (double_parts b D) as (s & S & V & _ & E & F). assert (Q : Z.of_N b mod 2 ^ 63 = d_exp b * 2 ^ 52 + d_frac b) by (rewrite V; symmetry; apply (Z.mod_unique _ _ s); lia).
    rewrite Q, Z.leb_le. unfold nan. split; [intros H [X Y]; lia|]. intros H. destruct (Z.eq_dec (d_exp b) 2047) as [X|X]; [|lia]. destruct (Z.eq_dec (d_frac b) 0) as [Y|Y]; [lia|]. destruct H. auto.
Qed.
Lemma double_bits_eq a b : is_double a -> is_double b -> (double_bits a = double_bits b <-> a = b \/ nan a /\ nan b).
Proof.
  pose proof not_nan as M.
  assert (C : ~ (Z.of_N 0x7FF8000000000000%N mod 2 ^ 63 <=? 2047 * 2 ^ 52) = true) by (vm_compute; discriminate).
  intros A B. pose proof (M a A) as MA. pose proof (M b B) as MB. unfold double_bits.
  destruct (Z.of_N a mod 2 ^ 63 <=? 2047 * 2 ^ 52) eqn:Ea, (Z.of_N b mod 2 ^ 63 <=? 2047 * 2 ^ 52) eqn:Eb.
  - split; [auto|]. intros [E|[X _]]; [exact E|]. destruct (proj1 MA eq_refl X).
  - split; [intros ->; congruence|]. intros [->|[X _]]; [congruence|]. destruct (proj1 MA eq_refl X).
  - split; [intros <-; congruence|]. intros [->|[_ X]]; [congruence|]. destruct (proj1 MB eq_refl X).
  - split; [|reflexivity]. intros _. right. unfold nan in *. assert (P : forall b : N, {d_exp b = 2047 /\ d_frac b <> 0} + {~ (d_exp b = 2047 /\ d_frac b <> 0)}).
    { intros y. destruct (Z.eq_dec (d_exp y) 2047); [|right; tauto]. destruct (Z.eq_dec (d_frac y) 0); [right; tauto|left; tauto]. }
    destruct (P a) as [X|X]; [|apply MA in X; discriminate]. destruct (P b) as [Y|Y]; [|apply MB in Y; discriminate]. split; assumption.
Qed.
Lemma bytes_eqb (x y : list N) : list_eqb N.eqb x y = true <-> x = y.
Proof.
  split; [|intros <-; induction x as [|a x IH]; [reflexivity|cbn [list_eqb]; rewrite N.eqb_refl, IH; reflexivity]].
  revert y. induction x as [|a x IH]; intros [|b y]; cbn [list_eqb]; try discriminate; [reflexivity|]. intros H. apply andb_prop in H. destruct H as [A B]. apply N.eqb_eq in A. rewrite A, (IH y B). reflexivity.
Qed.
Lemma str_eqb_iff x y : str_eqb x y = true <-> x = y.
Proof. split; [apply str_eqb_eq|intros ->; apply str_eqb_refl]. Qed.
Theorem equal_is v w : proper v -> proper w -> (equal_value v w = true <-> same_value v w).
Proof.
  intros P Q. split.
  - destruct v as [v|], w as [w|]; cbn [equal_value]; try discriminate; [|destruct v; discriminate|intros _; constructor].
    destruct v, w; cbn [equal_value]; try discriminate; intros H.
    + apply Z.eqb_eq in H. subst. constructor.
    + apply Z.eqb_eq in H. subst. constructor.
    + apply N.eqb_eq in H. apply (double_bits_eq _ _ P Q) in H. destruct H as [->|[X Y]]; constructor; assumption.
    + apply Bool.eqb_prop in H. subst. constructor.
    + apply str_eqb_eq in H. constructor. exact H.
    + apply bytes_eqb in H. subst. constructor.
    + apply andb_prop in H. destruct H as [A B]. apply str_eqb_eq in A. apply Nat.eqb_eq in B. subst. constructor.
  - intros H. destruct H; cbn [equal_value]; try apply Z.eqb_refl; try reflexivity.
    + apply N.eqb_refl.
    + apply N.eqb_eq. apply (double_bits_eq _ _ P Q). auto.
    + destruct b; reflexivity.
    + apply str_eqb_iff. assumption.
    + apply bytes_eqb. reflexivity.
    + rewrite str_eqb_refl, Nat.eqb_refl. reflexivity.
Qed.
Theorem equal_hash layer v w : equal_value v w = true -> hash_value layer v = hash_value layer w.
Proof.
  destruct v as [v|], w as [w|]; cbn [equal_value]; try discriminate; [|destruct v; discriminate|reflexivity].
  destruct v, w; cbn [equal_value hash_value]; try discriminate; intros H.
  - apply Z.eqb_eq in H. congruence.
  - apply Z.eqb_eq in H. congruence.
  - apply N.eqb_eq in H. rewrite H. reflexivity.
  - apply Bool.eqb_prop in H. subst; reflexivity.
  - apply str_eqb_eq in H. rewrite H. reflexivity.
  - apply bytes_eqb in H. congruence.
  - apply andb_prop in H. destruct H as [A B]. apply str_eqb_eq in A. apply Nat.eqb_eq in B. congruence.
Qed.
Theorem equal_sym v w : equal_value v w = equal_value w v.
Proof.
  destruct v as [v|], w as [w|]; cbn [equal_value]; try reflexivity; [|destruct v; reflexivity|destruct w; reflexivity].
  destruct v, w; cbn [equal_value]; try reflexivity.
  - apply Z.eqb_sym.
  - apply Z.eqb_sym.
  - apply N.eqb_sym.
  - destruct b, b0; reflexivity.
  - destruct (str_eqb (utf16 x) (utf16 x0)) eqn:A, (str_eqb (utf16 x0) (utf16 x)) eqn:B; try reflexivity; apply str_eqb_eq in A || apply str_eqb_eq in B; [rewrite A, str_eqb_refl in B|rewrite B, str_eqb_refl in A]; discriminate.
  - destruct (list_eqb N.eqb x x0) eqn:A, (list_eqb N.eqb x0 x) eqn:B; try reflexivity; [apply bytes_eqb in A; subst|apply bytes_eqb in B; subst]; rewrite (proj2 (bytes_eqb _ _) eq_refl) in *; discriminate.
  - f_equal; [|apply Nat.eqb_sym]. destruct (str_eqb layer layer0) eqn:A, (str_eqb layer0 layer) eqn:B; try reflexivity; apply str_eqb_eq in A || apply str_eqb_eq in B; subst; rewrite str_eqb_refl in *; discriminate.
Qed.
Theorem equal_trans u v w : equal_value u v = true -> equal_value v w = true -> equal_value u w = true.
Proof.
  destruct u as [u|], v as [v|], w as [w|]; cbn [equal_value]; try discriminate; try reflexivity; try (destruct u; discriminate); try (destruct v; discriminate).
  destruct u, v; cbn [equal_value]; try discriminate; destruct w; cbn [equal_value]; try discriminate.
  - intros A B. apply Z.eqb_eq in A, B. apply Z.eqb_eq. congruence.
  - intros A B. apply Z.eqb_eq in A, B. apply Z.eqb_eq. congruence.
  - intros A B. apply N.eqb_eq in A, B. apply N.eqb_eq. congruence.
  - intros A B. apply Bool.eqb_prop in A, B. subst. apply Bool.eqb_reflx.
  - intros A B. apply str_eqb_eq in A, B. apply str_eqb_iff. congruence.
  - intros A B. apply bytes_eqb in A, B. apply bytes_eqb. congruence.
  - intros A B. apply andb_prop in A, B. destruct A as [A1 A2], B as [B1 B2]. apply str_eqb_eq in A1, B1. apply Nat.eqb_eq in A2, B2. subst. rewrite str_eqb_refl, Nat.eqb_refl. reflexivity.
Qed.

(** ** document values *)
Lemma history_doc j cs : fold_left dv_call cs (dv_of_doc j) = dv_of_doc (edited j (edits_of cs)).
Proof.
  revert j. induction cs as [|c cs IH]; intros j; [reflexivity|]. cbn [fold_left]. destruct c as [| | |e]; cbn [dv_call]; try exact (IH j).
  unfold dv_edit, dv_document. cbn [dv_doc dv_of_doc dv_bytes]. unfold edited. cbn [edits_of flat_map app fold_left]. destruct (run_edit e j) as [d r] eqn:E. cbn [fst]. exact (IH d).
Qed.
Theorem history_bytes b cs : fold_left dv_call cs (dv_of_bytes b) =
  match java_decode b with
  | Ok j => if asked_for cs then dv_of_doc (edited j (edits_of cs)) else dv_of_bytes b
  | Err _ => dv_of_bytes b
  end.
Proof.
  induction cs as [|c cs IH]; [cbn; destruct (java_decode b); reflexivity|]. cbn [fold_left].
  destruct (java_decode b) as [j|e] eqn:D.
  - destruct c as [| | |e].
    + exact IH.
    + cbn [dv_call asked_for existsb orb]. unfold dv_document. cbn [dv_doc dv_bytes dv_of_bytes]. rewrite D. cbn [fst]. exact (history_doc j cs).
    + cbn [dv_call asked_for existsb orb]. unfold dv_string, dv_document. cbn [dv_doc dv_bytes dv_of_bytes]. rewrite D. cbn [fst]. exact (history_doc j cs).
    + cbn [dv_call asked_for existsb orb]. unfold dv_edit, dv_document. cbn [dv_doc dv_bytes dv_of_bytes]. rewrite D. cbn [dv_bytes]. destruct (run_edit e j) as [d r] eqn:E. cbn [fst].
      change (mkDV None (Some d)) with (dv_of_doc d). rewrite history_doc. f_equal. unfold edited. cbn [edits_of flat_map app fold_left]. rewrite E. reflexivity.
  - assert (F : dv_call (dv_of_bytes b) c = dv_of_bytes b).
    { destruct c; cbn [dv_call]; unfold dv_edit, dv_string, dv_document; cbn [dv_doc dv_bytes dv_of_bytes]; rewrite ?D; reflexivity. }
    rewrite F. exact IH.
Qed.
Theorem value_written j cs : let v := fold_left dv_call cs (dv_of_doc j) in dv_binary v = java_encode (edited j (edits_of cs)) /\ snd (dv_document v) = Ok (edited j (edits_of cs)).
Proof. cbn zeta. rewrite history_doc. split; reflexivity. Qed.
Theorem value_from_bytes b j cs : java_decode b = Ok j -> let v := fold_left dv_call cs (dv_of_bytes b) in
  dv_binary v = (if asked_for cs then java_encode (edited j (edits_of cs)) else Ok b) /\ snd (dv_document v) = Ok (edited j (edits_of cs)).
Proof.
  intros D. cbn zeta. rewrite history_bytes, D. destruct (asked_for cs) eqn:A; [split; reflexivity|]. split; [reflexivity|].
  assert (E : edits_of cs = []). { clear - A. induction cs as [|c cs IH]; [reflexivity|]. destruct c; cbn in A; try discriminate. apply IH. exact A. }
  rewrite E. unfold dv_document. cbn [dv_doc dv_bytes dv_of_bytes]. rewrite D. reflexivity.
Qed.
Theorem value_bad_bytes b e cs : java_decode b = Err e -> let v := fold_left dv_call cs (dv_of_bytes b) in dv_binary v = Ok b /\ dv_document v = (v, Err e) /\ dv_string v = (v, Err e).
Proof. intros D. cbn zeta. rewrite history_bytes, D. split; [reflexivity|]. unfold dv_string, dv_document. cbn [dv_doc dv_bytes dv_of_bytes]. rewrite D. split; reflexivity. Qed.
Theorem value_again j b : jdoc_ok j -> java_rereadable j -> dv_binary (dv_of_doc j) = Ok b -> exists k, snd (dv_document (dv_of_bytes b)) = Ok k /\ doc_again j k.
Proof.
  intros K R E. destruct (java_again j b [] K R E) as (k & D & A). rewrite app_nil_r in D. exists k. split; [|exact A]. unfold dv_document. cbn [dv_doc dv_bytes dv_of_bytes]. rewrite D. reflexivity.
Qed.
Theorem value_text d b j x : java_decode b = Ok j -> dget (jd_texts j) (s "main") = Some x -> string_value d (Some (JExt (s "doc") b)) = Ok (Some x) /\ snd (dv_string (dv_of_bytes b)) = Ok x /\ snd (dv_string (dv_of_doc j)) = Ok x.
Proof.
  intros D T. split; [|split].
  - unfold string_value. rewrite str_eqb_refl, D. cbn [rbind]. rewrite T. reflexivity.
  - unfold dv_string, dv_document. cbn [dv_doc dv_bytes dv_of_bytes]. rewrite D. cbn [snd]. rewrite T. reflexivity.
  - unfold dv_string, dv_document. cbn [dv_doc dv_of_doc snd]. rewrite T. reflexivity.
Qed.
Theorem value_no_text d b j : java_decode b = Ok j -> dget (jd_texts j) (s "main") = None -> string_value d (Some (JExt (s "doc") b)) = Ok (Some (s "null")) /\ snd (dv_string (dv_of_bytes b)) = Ok (s "null") /\ snd (dv_string (dv_of_doc j)) = Ok (s "null").
Proof.
  intros D T. split; [|split].
  - unfold string_value. rewrite str_eqb_refl, D. cbn [rbind]. rewrite T. reflexivity.
  - unfold dv_string, dv_document. cbn [dv_doc dv_bytes dv_of_bytes]. rewrite D. cbn [snd]. rewrite T. reflexivity.
  - unfold dv_string, dv_document. cbn [dv_doc dv_of_doc snd]. rewrite T. reflexivity.
Qed.

(** ** hashes *)
Lemma to_int_of x : int_of x (to_int x).
Proof.
  unfold int_of, to_int. pose proof (Z.mod_pos_bound (x + 2 ^ 31) (2 ^ 32) ltac:(lia)). split; [lia|]. exists (- ((x + 2 ^ 31) / 2 ^ 32)). pose proof (Z.div_mod (x + 2 ^ 31) (2 ^ 32) ltac:(lia)). lia.
Qed.
Lemma poly31_weigh l a : - 2 ^ 31 <= a < 2 ^ 31 -> int_of (a * 31 ^ Z.of_nat (length l) + weigh l) (poly31 a l).
Proof.
  revert a. induction l as [|c l IH]; intros a B.
  - cbn [length weigh]. change (poly31 a []) with a. change (31 ^ Z.of_nat 0) with 1. split; [exact B|]. exists 0. lia.
  - change (poly31 a (c :: l)) with (poly31 (to_int (31 * a + c)) l). destruct (to_int_of (31 * a + c)) as [R [k E]]. destruct (IH _ R) as [R2 [m F]]. split; [exact R2|].
    exists (m + k * 31 ^ Z.of_nat (length l)). rewrite F. cbn [length weigh]. rewrite Nat2Z.inj_succ, Z.pow_succ_r by lia. rewrite E. ring.
Qed.
Theorem string_hash layer x : exists h g, int_of (weigh (map Z.of_N (utf16 x))) h /\ int_of (31 + h) g /\ hash_value layer (Some (JStr x)) = Some g.
Proof.
  exists (poly31 0 (map Z.of_N (utf16 x))), (objects_hash (poly31 0 (map Z.of_N (utf16 x)))). split; [|split; [apply to_int_of|reflexivity]].
  exact (poly31_weigh (map Z.of_N (utf16 x)) 0 ltac:(lia)).
Qed.
Theorem int_hash layer i : exists g, int_of (31 + i) g /\ hash_value layer (Some (JInt i)) = Some g.
Proof. exists (objects_hash i). split; [apply to_int_of|reflexivity]. Qed.
Theorem int_hash_one layer i k : - 2 ^ 31 <= i < 2 ^ 31 -> - 2 ^ 31 <= k < 2 ^ 31 -> hash_value layer (Some (JInt i)) = hash_value layer (Some (JInt k)) -> i = k.
Proof.
  intros A B H. destruct (int_hash layer i) as (g & [R [m E]] & G). destruct (int_hash layer k) as (g' & [R' [m' E']] & G'). assert (g = g') by congruence. subst g'. assert (m = m') by lia. lia.
Qed.
Theorem bytes_hash layer x : Forall (fun c => (c < 256)%N) x -> exists h, int_of (31 ^ Z.of_nat (length x) + weigh (map (fun c => to_signed (Z.of_N c)) x)) h /\ hash_value layer (Some (JBin x)) = Some h.
Proof.
  intros F. exists (poly31 1 (map (fun c => if (c <? 128)%N then Z.of_N c else Z.of_N c - 256) x)). split; [|reflexivity].
  assert (E : map (fun c => if (c <? 128)%N then Z.of_N c else Z.of_N c - 256) x = map (fun c => to_signed (Z.of_N c)) x).
  { apply map_ext_Forall. apply (Forall_impl _ (P := fun c => (c < 256)%N)); [|exact F]. intros c L. unfold to_signed. destruct (N.ltb_spec c 128), (Z.ltb_spec (Z.of_N c) 128); lia. }
  rewrite E. pose proof (poly31_weigh (map (fun c => to_signed (Z.of_N c)) x) 1 ltac:(lia)) as W. rewrite map_length, Z.mul_1_l in W. exact W.
Qed.
(** ** hashes of longs and doubles *)
Lemma lxor_mod a b : Z.lxor a b mod 2 ^ 32 = Z.lxor (a mod 2 ^ 32) (b mod 2 ^ 32).
Proof.
  apply Z.bits_inj'. intros n Hn. rewrite Z.lxor_spec. destruct (Z_lt_ge_dec n 32).
  - rewrite !Z.mod_pow2_bits_low by lia. apply Z.lxor_spec.
  - rewrite !Z.mod_pow2_bits_high by lia. reflexivity.
Qed.
Lemma to_int_mod x y : x mod 2 ^ 32 = y mod 2 ^ 32 -> to_int x = to_int y.
Proof. intros E. unfold to_int. rewrite (Z.add_mod x), (Z.add_mod y), E by lia. reflexivity. Qed.
Lemma halves_hash layer hi lo : 0 <= lo < 2 ^ 32 -> exists h g, int_of (Z.lxor hi lo) h /\ int_of (31 + h) g /\ hash_value layer (Some (JLong (hi * 2 ^ 32 + lo))) = Some g.
Proof.
  intros Hl. exists (to_int (Z.lxor hi lo)), (objects_hash (to_int (Z.lxor hi lo))). split; [apply to_int_of|]. split; [apply to_int_of|]. cbn [hash_value]. f_equal. f_equal.
  unfold long_hash. apply to_int_mod. rewrite !lxor_mod. rewrite Z.lxor_comm.
  assert (E : (hi * 2 ^ 32 + lo) mod 2 ^ 64 = (hi mod 2 ^ 32) * 2 ^ 32 + lo).
  { symmetry. apply Z.mod_unique with (q := hi / 2 ^ 32).
    - left. pose proof (Z.mod_pos_bound hi (2 ^ 32) ltac:(lia)). lia.
    - pose proof (Z.div_mod hi (2 ^ 32) ltac:(lia)). lia. }
  rewrite E. f_equal.
  - rewrite Z.div_add_l by lia. rewrite (Z.div_small lo) by lia. rewrite Z.add_0_r. apply Z.mod_mod. lia.
  - rewrite Z.add_comm, Z.mod_add by lia. reflexivity.
Qed.
Lemma doubles_hash layer b : is_double b -> (~ nan b -> hash_value layer (Some (JDouble b)) = hash_value layer (Some (JLong (Z.of_N b)))) /\
  (nan b -> hash_value layer (Some (JDouble b)) = hash_value layer (Some (JLong 0x7FF8000000000000))).
Proof.
  intros D. pose proof (not_nan b D) as M. cbn [hash_value]. unfold double_bits. destruct (Z.of_N b mod 2 ^ 63 <=? 2047 * 2 ^ 52).
  - split; [reflexivity|]. intros X. destruct (proj1 M eq_refl X).
  - split; [|reflexivity]. intros X. discriminate (proj2 M X).
Qed.
