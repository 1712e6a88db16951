(** The accessors of the values of the Java port. *)
From Verif Require Import PyBase PyBaseFacts Model_Text Model_Heap Model_Layer Model_Types Model_Codec Model_Printout Model_JUnits Model_JText Model_JCodec Model_JValue Spec_JValue Spec_Printout Proof_Printout Proof_JValue Proof_JValue2.
Local Open Scope Z_scope.

Lemma utf16_small x : Forall (fun c => c < 0x10000)%N x -> utf16 x = x.
Proof. induction 1 as [|c x L H IH]; [reflexivity|]. unfold utf16 in *. cbn [flat_map]. rewrite IH. unfold utf16_char. destruct (N.ltb_spec c 0x10000); [reflexivity|lia]. Qed.
Lemma str_int_chars i : Forall (fun c => c = 45 \/ 48 <= c <= 57)%N (str_int i).
Proof.
  unfold str_int. destruct (Z.ltb_spec i 0) as [L|L].
  - constructor; [left; reflexivity|]. destruct (str_int_ok (- i) ltac:(lia)) as (_ & F & _). unfold str_int in F. destruct (Z.ltb_spec (- i) 0); [lia|]. eapply Forall_impl; [|exact F]. intros c. unfold is_digit. lia.
  - destruct (str_int_ok i L) as (_ & F & _). unfold str_int in F. destruct (Z.ltb_spec i 0); [lia|]. eapply Forall_impl; [|exact F]. intros c. unfold is_digit. lia.
Qed.
Lemma str_int_inj a b : str_int a = str_int b -> a = b.
Proof.
  intros E. pose proof (int_again (Z.abs a + Z.abs b + 1) a ltac:(lia) ltac:(lia)) as A. rewrite E, int_again in A by lia. congruence.
Qed.
(** ** numbers *)
Theorem text_of_number j i : (- 2 ^ 31 <= i < 2 ^ 31 -> exists x, string_value j (Some (JInt i)) = Ok (Some x) /\ int_value j (Some (JStr x)) = Ok i) /\
  (- 2 ^ 63 <= i < 2 ^ 63 -> exists x, string_value j (Some (JLong i)) = Ok (Some x) /\ long_value j (Some (JStr x)) = Ok i).
Proof.
  assert (U : utf16 (str_int i) = str_int i) by (apply utf16_small; eapply Forall_impl; [|apply str_int_chars]; intros c; cbn beta; lia).
  split; intros R; exists (str_int i); (split; [reflexivity|]); cbn [int_value long_value string_value rbind]; rewrite U; apply int_again; lia.
Qed.
Theorem number_of_text j x v : (int_value j (Some (JStr x)) = Ok v <-> numeral (utf16 x) v /\ - 2 ^ 31 <= v < 2 ^ 31) /\ (long_value j (Some (JStr x)) = Ok v <-> numeral (utf16 x) v /\ - 2 ^ 63 <= v < 2 ^ 63) /\
  (forall e, int_value j (Some (JStr x)) = Err e \/ long_value j (Some (JStr x)) = Err e -> e = ValueError).
Proof.
  cbn [int_value long_value string_value rbind]. split; [apply parse_exact; lia|]. split; [apply parse_exact; lia|]. intros e [H|H]; eapply parse_error; exact H.
Qed.
Theorem numbers j i : - 2 ^ 31 <= i < 2 ^ 31 -> exists d, int_value j (Some (JInt i)) = Ok i /\ long_value j (Some (JInt i)) = Ok i /\ double_value j (Some (JInt i)) = Ok d /\ in_units d = i * unit1 /\
  int_value j (Some (JDouble d)) = Ok i /\ long_value j (Some (JDouble d)) = Ok i /\ int_value j (Some (JLong i)) = Ok i.
Proof.
  intros R. exists (to_double i). split; [reflexivity|]. split; [reflexivity|]. split; [reflexivity|]. split; [apply exact_double; lia|]. cbn [int_value long_value].
  split; [f_equal; apply whole_again; lia|]. split; [f_equal; apply whole_again; lia|]. f_equal. apply to_int_ok. exact R.
Qed.
Theorem longs j i : - 2 ^ 63 <= i < 2 ^ 63 -> exists n d, long_value j (Some (JLong i)) = Ok i /\ int_value j (Some (JLong i)) = Ok n /\ - 2 ^ 31 <= n < 2 ^ 31 /\ (exists k, n = i + k * 2 ^ 32) /\
  double_value j (Some (JLong i)) = Ok d /\ nearest d i /\ (Z.abs i <= 2 ^ 53 -> in_units d = i * unit1 /\ long_value j (Some (JDouble d)) = Ok i).
Proof.
  intros R. exists (to_int i), (to_double i). destruct (to_int_ok i) as (A & B & _). split; [reflexivity|]. split; [reflexivity|]. split; [exact A|]. split; [exact B|]. split; [reflexivity|]. split; [apply nearest_double, R|].
  intros L. split; [apply exact_double, L|]. cbn [long_value]. f_equal. apply whole_again; lia.
Qed.
Theorem doubles j b : is_double b ->
  (finite b -> exists t, truncated b t /\ int_value j (Some (JDouble b)) = Ok (Z.max (- 2 ^ 31) (Z.min (2 ^ 31 - 1) t)) /\ long_value j (Some (JDouble b)) = Ok (Z.max (- 2 ^ 63) (Z.min (2 ^ 63 - 1) t))) /\
  (d_exp b = 2047 -> d_frac b = 0 -> int_value j (Some (JDouble b)) = Ok (if d_neg b then - 2 ^ 31 else 2 ^ 31 - 1) /\ long_value j (Some (JDouble b)) = Ok (if d_neg b then - 2 ^ 63 else 2 ^ 63 - 1)) /\
  (d_exp b = 2047 -> d_frac b <> 0 -> int_value j (Some (JDouble b)) = Ok 0 /\ long_value j (Some (JDouble b)) = Ok 0).
Proof.
  intros D. split; [|split]; cbn [int_value long_value].
  - intros F. destruct (cast_double (2 ^ 31) b F) as (t & T & E). destruct (cast_double (2 ^ 63) b F) as (u & U & E2). rewrite <- (truncated_only _ _ _ T U) in E2. exists t. rewrite E, E2. auto.
  - intros X Y. rewrite !(cast_odd _ b D X), Y. split; reflexivity.
  - intros X Y. rewrite !(cast_odd _ b D X). destruct (Z.eqb_spec (d_frac b) 0); [contradiction|]. split; reflexivity.
Qed.
(** ** truth *)
Lemma lower_is x : forall y, Forall (fun d => 97 <= d <= 122)%N y -> str_eqb (map (fun c => if (65 <=? c)%N && (c <=? 90)%N then (c + 32)%N else c) x) y = true <-> Forall2 same_letter x y.
Proof.
  induction x as [|c x IH]; intros [|d y] F; cbn [map]; try (split; [discriminate|intros H; inversion H]); [split; [constructor|reflexivity]|].
  inversion F as [|? ? D F2]; subst. specialize (IH y F2). cbn [str_eqb list_eqb] in *. unfold str_eqb in *. cbn [list_eqb]. rewrite andb_true_iff, IH, N.eqb_eq. unfold same_letter.
  assert (X : (if (65 <=? c)%N && (c <=? 90)%N then (c + 32)%N else c) = d <-> c = d \/ (c + 32 = d)%N).
  { destruct (N.leb_spec 65 c), (N.leb_spec c 90); cbn [andb]; lia. }
  rewrite X. split; [intros [A B]; constructor; assumption|]. intros H. inversion H; subst. split; assumption.
Qed.
Theorem truth j b x : bool_value j (Some (JBool b)) = Ok b /\ (bool_value j (Some (JStr x)) = Ok true <-> Forall2 same_letter (utf16 x) (s "true")) /\ exists t, bool_value j (Some (JStr x)) = Ok t.
Proof.
  split; [destruct b; reflexivity|]. cbn [bool_value string_value rbind parse_bool]. split; [|eauto]. rewrite <- (lower_is (utf16 x) (s "true")); [|repeat constructor; vm_compute; congruence].
  split; [congruence|]. intros H. f_equal. exact H.
Qed.
Theorem truth_numbers j i : bool_value j (Some (JInt i)) = Ok (negb (i =? 0)) /\ bool_value j (Some (JLong i)) = Ok (negb (i =? 0)) /\
  (Z.abs i <= 2 ^ 53 -> bool_value j (Some (JDouble (to_double i))) = Ok (i =? 0)).
Proof. split; [reflexivity|]. split; [reflexivity|]. intros L. cbn [bool_value]. f_equal. apply double_bool_opposite, L. Qed.
(** ** parts of a text *)
Lemma java_sub_is {A} (x : list A) a b w : java_sub x a b = Ok w <-> exists u v, x = u ++ w ++ v /\ zlen u = a /\ zlen (u ++ w) = b.
Proof.
  unfold java_sub, sub, zlen. split.
  - destruct ((0 <=? a) && (a <=? b) && (b <=? Z.of_nat (length x))) eqn:E; [|discriminate]. intros H. injection H as <-. apply andb_prop in E. destruct E as [E E3]. apply andb_prop in E. destruct E as [E1 E2].
    apply Z.leb_le in E1, E2, E3. exists (firstn (Z.to_nat a) x), (skipn (Z.to_nat (b - a)) (skipn (Z.to_nat a) x)). rewrite firstn_skipn, firstn_skipn. split; [reflexivity|].
    rewrite app_length, !firstn_length, skipn_length. lia.
  - intros (u & v & -> & <- & <-). rewrite !app_length. replace ((0 <=? _) && _ && _) with true by (symmetry; rewrite !andb_true_iff, !Z.leb_le; lia). f_equal.
    rewrite Nat2Z.id, skipn_app, skipn_all, Nat.sub_diag. cbn [skipn app]. replace (Z.to_nat _) with (length w) by lia. rewrite firstn_app, firstn_all, Nat.sub_diag, firstn_O, app_nil_r. reflexivity.
Qed.
Theorem text_of_span j t a b x w : dget (jd_texts j) t = Some x -> (string_value j (Some (JSpan t a b)) = Ok (Some w) <-> exists u v, x = u ++ w ++ v /\ zlen u = a /\ zlen (u ++ w) = b).
Proof.
  intros T. cbn [string_value]. unfold span_text. rewrite T, <- java_sub_is. destruct (java_sub x a b) as [y|e]; cbn [rbind]; [|split; discriminate]. split; congruence.
Qed.
Theorem text_of_nodespan j l fs rows ty p q ra rb t t' a b a' b' x w : dget (jd_layers j) l = Some (fs, rows) -> nth_error rows p = Some ra -> nth_error rows q = Some rb ->
  dget ra (s "text") = Some (JSpan t a b) -> dget rb (s "text") = Some (JSpan t' a' b') -> dget fs (s "text") = Some ty -> ty_name ty = JT TSpan -> dget (jd_texts j) t = Some x ->
  (string_value j (Some (JNodeSpan l p q)) = Ok (Some w) <-> exists u v, x = u ++ w ++ v /\ zlen u = a /\ zlen (u ++ w) = b').
Proof.
  intros L A B Ta Tb F N T. cbn [string_value]. unfold nodespan_string, node_text. rewrite L, A, B, Ta, Tb, F, N. cbn [the_span rbind fst snd]. unfold span_text. rewrite T, <- java_sub_is.
  destruct (java_sub x a b') as [y|e]; cbn [rbind]; [|split; discriminate]. split; congruence.
Qed.
(** ** what a text tells *)
Lemma last_sep {A} (c : A) u v u' v' : ~ In c v -> ~ In c v' -> u ++ c :: v = u' ++ c :: v' -> u = u' /\ v = v'.
Proof.
  intros N N' E. apply app_eq_app in E. destruct E as (l & [[E1 E2]|[E1 E2]]).
  - destruct l as [|a l]; [cbn in E2; injection E2 as ->; rewrite app_nil_r in E1; auto|]. cbn in E2. injection E2 as -> E2. exfalso. apply N'. rewrite E2. apply in_or_app. right. left. reflexivity.
  - destruct l as [|a l]; [cbn in E2; injection E2 as ->; rewrite app_nil_r in E1; auto|]. cbn in E2. injection E2 as -> E2. exfalso. apply N. rewrite E2. apply in_or_app. right. left. reflexivity.
Qed.
Lemma first_sep {A} (c : A) u v u' v' : ~ In c u -> ~ In c u' -> u ++ c :: v = u' ++ c :: v' -> u = u' /\ v = v'.
Proof.
  intros N N' E. apply app_eq_app in E. destruct E as (l & [[E1 E2]|[E1 E2]]).
  - destruct l as [|a l]; [cbn in E2; injection E2 as ->; rewrite app_nil_r in E1; auto|]. cbn in E2. injection E2 as -> E2. exfalso. apply N. rewrite E1. apply in_or_app. right. left. reflexivity.
  - destruct l as [|a l]; [cbn in E2; injection E2 as ->; rewrite app_nil_r in E1; auto|]. cbn in E2. injection E2 as -> E2. exfalso. apply N'. rewrite E1. apply in_or_app. right. left. reflexivity.
Qed.
Lemma not_in_number c i : (c <> 45)%N -> (c < 48 \/ 57 < c)%N -> ~ In c (str_int i).
Proof. intros A B H. pose proof (str_int_chars i) as F. rewrite Forall_forall in F. specialize (F _ H). lia. Qed.
Theorem node_told j l i l' i' x : string_value j (Some (JNode l i)) = Ok (Some x) -> string_value j (Some (JNode l' i')) = Ok (Some x) -> utf16 l = utf16 l' /\ i = i'.
Proof.
  cbn [string_value]. unfold node_string. intros A B. assert (E : utf16 l ++ 35%N :: str_int (Z.of_nat i) = utf16 l' ++ 35%N :: str_int (Z.of_nat i')) by (cbn in A, B; congruence).
  apply last_sep in E; [|apply not_in_number; lia|apply not_in_number; lia]. destruct E as [E1 E2]. split; [exact E1|]. apply str_int_inj in E2. lia.
Qed.
Lemma ids_inj r : forall i r' i', str_int (Z.of_nat i) ++ flat_map (fun k => s "," ++ str_int (Z.of_nat k)) r = str_int (Z.of_nat i') ++ flat_map (fun k => s "," ++ str_int (Z.of_nat k)) r' -> i :: r = i' :: r'.
Proof.
  assert (C : forall i, ~ In 44%N (str_int (Z.of_nat i))) by (intros i; apply not_in_number; lia).
  induction r as [|k r IH]; intros i [|k' r'] i' E; cbn [flat_map] in E.
  - rewrite !app_nil_r in E. apply str_int_inj in E. f_equal. lia.
  - exfalso. rewrite app_nil_r in E. apply (C i). rewrite E. apply in_or_app. right. left. reflexivity.
  - exfalso. rewrite app_nil_r in E. apply (C i'). rewrite <- E. apply in_or_app. right. left. reflexivity.
  - change (s "," ++ str_int (Z.of_nat k)) with (44%N :: str_int (Z.of_nat k)) in E. change (s "," ++ str_int (Z.of_nat k')) with (44%N :: str_int (Z.of_nat k')) in E. rewrite <- !app_comm_cons in E.
    apply first_sep in E; [|apply C|apply C]. destruct E as [E1 E2]. apply str_int_inj in E1. apply IH in E2. f_equal; [lia|exact E2].
Qed.
Theorem nodes_told j l is l' is' x : string_value j (Some (JNodes l is)) = Ok (Some x) -> string_value j (Some (JNodes l' is')) = Ok (Some x) -> is = is' /\ (is <> [] -> utf16 l = utf16 l').
Proof.
  cbn [string_value]. intros A B. assert (E : nodes_string l is = nodes_string l' is') by congruence. clear A B.
  assert (C : forall i r, ~ In 91%N (str_int (Z.of_nat i) ++ flat_map (fun k => s "," ++ str_int (Z.of_nat k)) r ++ s "]")).
  { assert (C0 : forall i, ~ In 91%N (str_int (Z.of_nat i))) by (intros i; apply not_in_number; lia). intros i r H. apply in_app_or in H. destruct H as [H|H]; [exact (C0 _ H)|]. apply in_app_or in H. destruct H as [H|[H|[]]]; [|discriminate].
    apply in_flat_map in H. destruct H as (k & _ & H). destruct H as [H|H]; [discriminate|exact (C0 _ H)]. }
  assert (P : forall i r, str_int (Z.of_nat i) ++ flat_map (fun k => s "," ++ str_int (Z.of_nat k)) r ++ s "]" <> s "]").
  { intros i r H. rewrite app_assoc in H. change (s "]") with ([] ++ s "]") in H at 2. apply app_inj_tail in H. destruct H as [H _]. apply app_eq_nil in H. destruct H as [H _]. destruct (str_int_ok (Z.of_nat i) ltac:(lia)) as (_ & _ & N). contradiction. }
  destruct is as [|i r], is' as [|i' r']; cbn [nodes_string] in E.
  - split; [reflexivity|congruence].
  - exfalso. change (s "[]") with ([] ++ 91%N :: s "]") in E. change (s "[" ++ ?y) with (91%N :: y) in E. apply last_sep in E; [|intros [H|[]]; discriminate|apply C]. destruct E as [_ E]. symmetry in E. exact (P _ _ E).
  - exfalso. change (s "[]") with ([] ++ 91%N :: s "]") in E. change (s "[" ++ ?y) with (91%N :: y) in E. apply last_sep in E; [|apply C|intros [H|[]]; discriminate]. destruct E as [_ E]. exact (P _ _ E).
  - change (s "[" ++ ?y) with (91%N :: y) in E. apply last_sep in E; [|apply C|apply C]. destruct E as [E1 E2]. rewrite !app_assoc in E2. apply app_inj_tail in E2. destruct E2 as [E2 _]. split; [apply ids_inj, E2|auto].
Qed.
Lemma base64_chars x : bytes8 x -> ~ In 58%N (base64 x).
Proof.
  assert (C : forall k, b64_char k <> 58%N).
  { intros k. unfold b64_char. destruct (Nat.lt_ge_cases (N.to_nat k) 64) as [L|L].
    - assert (H : forallb (fun n => negb (N.eqb (nth n b64_alphabet 0%N) 58)) (seq 0 64) = true) by (vm_compute; reflexivity). rewrite forallb_forall in H. specialize (H (N.to_nat k) ltac:(apply in_seq; lia)). intros E. rewrite E in H. discriminate.
    - rewrite nth_overflow; [discriminate|exact L]. }
  assert (G : forall n x, (length x <= n)%nat -> ~ In 58%N (base64 x)).
  { induction n as [|n IH]; intros y L; [destruct y; [intros []|cbn in L; lia]|]. destruct y as [|a [|b [|c y]]]; cbn [base64 In].
    - tauto.
    - intros [H|[H|[H|[H|[]]]]]; try discriminate; exact (C _ H).
    - intros [H|[H|[H|[H|[]]]]]; try discriminate; exact (C _ H).
    - intros [H|[H|[H|[H|H]]]]; try exact (C _ H). revert H. apply IH. cbn in L. lia. }
  intros _. exact (G _ x (le_n _)).
Qed.
Theorem bytes_told j x : bytes8 x -> exists y, string_value j (Some (JBin x)) = Ok (Some y) /\ unbase64 y = Some x /\ zlen y = 4 * ((zlen x + 2) / 3) /\ binary_value (Some (JBin x)) = Ok x.
Proof. intros B. eexists. split; [reflexivity|]. split; [apply base64_back, B|]. split; [apply base64_length|reflexivity]. Qed.
Theorem extension_told j t x t' x' y : bytes8 x -> bytes8 x' -> t <> s "doc" -> t' <> s "doc" -> string_value j (Some (JExt t x)) = Ok (Some y) -> string_value j (Some (JExt t' x')) = Ok (Some y) -> utf16 t = utf16 t' /\ x = x'.
Proof.
  intros B B' N N'. cbn [string_value]. rewrite (str_eqb_neq N), (str_eqb_neq N'). intros E E'. assert (Q : utf16 t ++ 58%N :: base64 x = utf16 t' ++ 58%N :: base64 x') by (cbn in E, E'; congruence).
  apply last_sep in Q; [|apply base64_chars, B|apply base64_chars, B']. destruct Q as [Q1 Q2]. split; [exact Q1|]. pose proof (base64_back x B) as R. rewrite Q2, base64_back in R by exact B'. congruence.
Qed.
(** ** fields that are not there *)
Theorem missing j row f : ~ In f (map fst row) -> let v := field_value row f in
  string_value j v = Ok (Some []) /\ int_value j v = Ok 0 /\ long_value j v = Ok 0 /\ double_value j v = Ok 0%N /\ bool_value j v = Ok false /\ binary_value v = Ok [] /\ nodes_value v = Ok [] /\
  node_value v = Err AttributeError /\ span_value v = Err AttributeError /\ nodespan_value v = Err AttributeError.
Proof. intros N v. assert (v = None) as -> by (apply dget_None; exact N). repeat split. Qed.
Theorem one_node l i : node_value (Some (JNode l i)) = Ok (l, i) /\ node_value (Some (JNodes l [i])) = Ok (l, i) /\ (forall is, length is <> 1%nat -> node_value (Some (JNodes l is)) = Err NotImplementedError).
Proof. split; [reflexivity|]. split; [reflexivity|]. intros [|a [|b r]] H; try reflexivity. cbn in H. congruence. Qed.
Theorem span_of_nodes l a b : (a <= b)%nat -> exists ns, nodes_value (Some (JNodeSpan l a b)) = Ok ns /\ (forall m i, In (m, i) ns <-> m = l /\ (a <= i <= b)%nat) /\ length ns = (b - a + 1)%nat /\ forall k x, nth_error ns k = Some x -> snd x = (a + k)%nat.
Proof.
  intros L. cbn [nodes_value]. destruct (Nat.ltb_spec b a); [lia|]. eexists. split; [reflexivity|]. split; [|split].
  - intros m i. rewrite in_map_iff. split.
    + intros (k & E & H1). injection E as <- <-. apply in_seq in H1. split; [reflexivity|lia].
    + intros [-> R]. exists i. split; [reflexivity|]. apply in_seq. lia.
  - rewrite map_length, seq_length. lia.
  - intros k x E. rewrite nth_error_map in E. destruct (nth_error (seq a (S b - a)) k) as [y|] eqn:Q; [|discriminate]. injection E as <-. cbn [snd].
    assert (K : (k < S b - a)%nat) by (rewrite <- (seq_length (S b - a) a); apply nth_error_Some; congruence). rewrite (nth_error_nth' _ 0%nat) in Q by (rewrite seq_length; exact K). rewrite seq_nth in Q by exact K. congruence.
Qed.
Theorem truth_double j b : is_double b -> (bool_value j (Some (JDouble b)) = Ok true <-> finite b /\ Z.abs (in_units b) <= in_units eps).
Proof. intros D. cbn [bool_value]. rewrite <- (double_bool_is b D). split; congruence. Qed.

(** ** what a value is *)
Theorem own_bytes v x : binary_value (Some v) = Ok x <-> v = JBin x \/ exists y, v = JExt y x.
Proof.
  destruct v; cbn [binary_value]; split; intros H; try discriminate; try (destruct H as [H|(y & H)]; discriminate).
  - injection H as <-. auto.
  - destruct H as [H|(y & H)]; [congruence|discriminate].
  - injection H as <-. eauto.
  - destruct H as [H|(y & H)]; congruence.
Qed.
Theorem own_span v t a b : span_value (Some v) = Ok (t, a, b) <-> v = JSpan t a b.
Proof. unfold span_value. destruct v; cbn [the_span]; split; intros H; try discriminate; [injection H as <- <- <-; reflexivity|injection H as -> -> ->; reflexivity]. Qed.
Theorem own_nodespan v l a b : nodespan_value (Some v) = Ok (l, a, b) <-> v = JNodeSpan l a b.
Proof. destruct v; cbn [nodespan_value]; split; intros H; try discriminate; [injection H as <- <- <-; reflexivity|injection H as -> -> ->; reflexivity]. Qed.
Theorem own_kind v e : binary_value (Some v) = Err e \/ span_value (Some v) = Err e \/ nodespan_value (Some v) = Err e \/ node_value (Some v) = Err e -> e = NotImplementedError.
Proof.
  intros [H|[H|[H|H]]].
  - destruct v; cbn in H; congruence.
  - unfold span_value in H. destruct v; cbn in H; congruence.
  - destruct v; cbn in H; congruence.
  - destruct v; cbn in H; try congruence. destruct is as [|? [|? ?]]; congruence.
Qed.
Theorem own_numbers j : (forall b : bool, int_value j (Some (JBool b)) = Ok (if b then 1 else 0) /\ long_value j (Some (JBool b)) = Ok (if b then 1 else 0) /\
    exists d, double_value j (Some (JBool b)) = Ok d /\ in_units d = (if b then unit1 else 0)) /\
  (forall d, double_value j (Some (JDouble d)) = Ok d) /\ (forall i, int_value j (Some (JInt i)) = Ok i /\ long_value j (Some (JInt i)) = Ok i /\ long_value j (Some (JLong i)) = Ok i) /\
  (forall l is, nodes_value (Some (JNodes l is)) = Ok (map (pair l) is)).
Proof. split; [|repeat split]. intros b. split; [destruct b; reflexivity|]. split; [destruct b; reflexivity|]. destruct b; eexists; (split; [reflexivity|]); vm_compute; reflexivity. Qed.
