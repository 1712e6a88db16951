(** Numerals, casts and Base64 in the Java port. *)
From Verif Require Import PyBase PyBaseFacts Model_Text Model_Printout Model_JUnits Model_JCodec Model_JValue Spec_JValue Spec_Printout Proof_Printout.
Local Open Scope Z_scope.

(** ** numerals *)
Lemma digit_find c : match find (fun z => (z <=? c)%N && (c <? z + 10)%N) decimal_zeros with Some z => digit c (Z.of_N (c - z)) | None => forall d, ~ digit c d end.
Proof.
  destruct (find _ _) as [z|] eqn:F.
  - apply find_some in F. destruct F as [I H]. apply andb_prop in H. destruct H as [A B]. apply N.leb_le in A. apply N.ltb_lt in B. exists z. split; [exact I|]. split; lia.
  - intros d (z & I & R & E). pose proof (find_none _ _ F z I) as H. cbn beta in H. apply andb_false_iff in H. destruct H as [H|H]; [apply N.leb_gt in H; lia|apply N.ltb_ge in H; lia].
Qed.
Lemma zeros_apart : forallb (fun p => forallb (fun q => N.eqb p q || (p + 10 <=? q)%N || (q + 10 <=? p)%N) decimal_zeros) decimal_zeros = true.
Proof. vm_compute. reflexivity. Qed.
Lemma digit_only c d e : digit c d -> digit c e -> d = e.
Proof.
  intros (z & I & R & E) (y & I2 & R2 & E2). pose proof zeros_apart as H. rewrite forallb_forall in H. specialize (H z I). cbn beta in H. rewrite forallb_forall in H. specialize (H y I2). cbn beta in H.
  apply orb_prop in H. destruct H as [H|H]; [apply orb_prop in H; destruct H as [H|H]|]; [apply N.eqb_eq in H; subst; lia|apply N.leb_le in H; lia|apply N.leb_le in H; lia].
Qed.
Lemma java_digit_is c d : 0 <= d -> java_digit c = d <-> digit c d.
Proof.
  intros L. unfold java_digit. pose proof (digit_find c) as H. destruct (find _ _) as [z|].
  - split; [intros <-; exact H|]. intros D. exact (digit_only _ _ _ H D).
  - split; [lia|]. intros D. destruct (H _ D).
Qed.
Lemma java_digit_none c : java_digit c < 0 -> forall d, ~ digit c d.
Proof.
  unfold java_digit. pose proof (digit_find c) as H. destruct (find _ _) as [z|]; [intros L; lia|]. intros _. exact H.
Qed.
Lemma digit_range c d : digit c d -> 0 <= d < 10 /\ (48 <= c)%N.
Proof.
  intros (z & I & R & E). split; [exact R|].
  assert (H : forallb (fun z => (48 <=? z)%N) decimal_zeros = true) by (vm_compute; reflexivity). rewrite forallb_forall in H. specialize (H z I). apply N.leb_le in H. lia.
Qed.
Lemma number_grows ds : Forall (fun d => 0 <= d < 10) ds -> forall a, 0 <= a -> a <= number_of a ds.
Proof. induction 1 as [|d ds R H IH]; intros a L; cbn [number_of]; [lia|]. specialize (IH (10 * a + d) ltac:(lia)). lia. Qed.
Lemma digits_range x ds : Forall2 digit x ds -> Forall (fun d => 0 <= d < 10) ds.
Proof. induction 1 as [|c d x ds D H IH]; constructor; [exact (proj1 (digit_range _ _ D))|exact IH]. Qed.
Lemma loop_ok L : 0 <= L -> forall x a, 0 <= a <= L -> 
  match parse_loop (- L) (- a) x with
  | Ok v => exists ds, Forall2 digit x ds /\ v = - number_of a ds /\ number_of a ds <= L
  | Err e => e = ValueError /\ forall ds, Forall2 digit x ds -> L < number_of a ds
  end.
Proof.
  intros P. induction x as [|c x IH]; intros a R; cbn [parse_loop].
  - exists []. split; [constructor|]. cbn [number_of]. lia.
  - destruct (Z.ltb_spec (java_digit c) 0) as [N|N].
    { split; [reflexivity|]. intros ds F. inversion F; subst. destruct (java_digit_none _ N _ H1). }
    pose proof (proj1 (java_digit_is c (java_digit c) N) eq_refl) as D. pose proof (proj1 (digit_range _ _ D)) as RD. remember (java_digit c) as d. clear Heqd.
    assert (Q : Z.quot (- L) 10 = - (L / 10)) by (rewrite Z.quot_opp_l by lia; rewrite Z.quot_div_nonneg by lia; reflexivity). rewrite Q.
    pose proof (Z.div_mod L 10 ltac:(lia)) as E. pose proof (Z.mod_pos_bound L 10 ltac:(lia)) as M.
    assert (Big : L < 10 * a + d -> forall ds, Forall2 digit (c :: x) ds -> L < number_of a ds).
    { intros B ds F. inversion F as [|? e ? ds' De Fx]; subst. rewrite (digit_only _ _ _ De D). cbn [number_of]. pose proof (number_grows _ (digits_range _ _ Fx) (10 * a + d) ltac:(lia)). lia. }
    destruct (Z.ltb_spec (- a) (- (L / 10))) as [X|X]; [split; [reflexivity|]; apply Big; lia|].
    destruct (Z.ltb_spec (- a * 10) (- L + d)) as [Y|Y]; [split; [reflexivity|]; apply Big; lia|].
    replace (- a * 10 - d) with (- (10 * a + d)) by lia. specialize (IH (10 * a + d) ltac:(lia)). destruct (parse_loop (- L) (- (10 * a + d)) x) as [v|e].
    + destruct IH as (ds & F & E1 & E2). exists (d :: ds). split; [constructor; assumption|]. split; assumption.
    + destruct IH as [-> H]. split; [reflexivity|]. intros ds F. inversion F as [|? e ? ds' De Fx]; subst. rewrite (digit_only _ _ _ De D). cbn [number_of]. apply H, Fx.
Qed.
Lemma digits_only x ds : Forall2 digit x ds -> forall es, Forall2 digit x es -> ds = es.
Proof. induction 1 as [|c d x ds D H IH]; intros es F; inversion F; subst; [reflexivity|]. f_equal; [eapply digit_only; eassumption|apply IH; assumption]. Qed.
Lemma number_nonneg x ds : Forall2 digit x ds -> 0 <= number_of 0 ds.
Proof. intros F. apply (number_grows _ (digits_range _ _ F) 0). lia. Qed.
Lemma numeral_shape x v : numeral x v -> match x with
  | [] => False
  | c :: r => exists ds, (c = 43%N /\ r <> [] /\ Forall2 digit r ds /\ v = number_of 0 ds) \/ (c = 45%N /\ r <> [] /\ Forall2 digit r ds /\ v = - number_of 0 ds) \/
      ((48 <= c)%N /\ Forall2 digit x ds /\ v = number_of 0 ds)
  end.
Proof.
  intros [y ds N F|y ds N F|y ds N F].
  - destruct y as [|c r]; [congruence|]. exists ds. right. right. split; [|auto]. inversion F; subst. eapply digit_range; eassumption.
  - exists ds. left. auto.
  - exists ds. right. left. auto.
Qed.
Theorem parse_exact m x v : 1 <= m -> (java_parse m (Some x) = Ok v <-> numeral x v /\ - m <= v < m).
Proof.
  intros P. unfold java_parse. destruct x as [|c r].
  { split; [discriminate|]. intros [H _]. apply numeral_shape in H. destruct H. }
  assert (Plain : forall y, (let* v := parse_loop (- (m - 1)) 0 y in Ok (- v)) = Ok v <-> exists ds, Forall2 digit y ds /\ v = number_of 0 ds /\ - m <= v < m).
  { intros y. pose proof (loop_ok (m - 1) ltac:(lia) y 0 ltac:(lia)) as H. change (- 0) with 0 in H. destruct (parse_loop (- (m - 1)) 0 y) as [w|e]; cbn [rbind].
    - destruct H as (ds & F & E & L). split.
      + intros Q. injection Q as Q. exists ds. pose proof (number_nonneg _ _ F). repeat split; auto; lia.
      + intros (es & F2 & E2 & B). rewrite (digits_only _ _ F _ F2) in *. f_equal. lia.
    - destruct H as [-> H]. split; [discriminate|]. intros (es & F2 & E2 & B). specialize (H _ F2). lia. }
  assert (Minus : parse_loop (- m) 0 r = Ok v <-> exists ds, Forall2 digit r ds /\ v = - number_of 0 ds /\ - m <= v < m).
  { pose proof (loop_ok m ltac:(lia) r 0 ltac:(lia)) as H. change (- 0) with 0 in H. destruct (parse_loop (- m) 0 r) as [w|e].
    - destruct H as (ds & F & E & L). split.
      + intros Q. injection Q as Q. exists ds. pose proof (number_nonneg _ _ F). repeat split; auto; lia.
      + intros (es & F2 & E2 & B). rewrite (digits_only _ _ F _ F2) in *. f_equal. lia.
    - destruct H as [-> H]. split; [discriminate|]. intros (es & F2 & E2 & B). specialize (H _ F2). lia. }
  destruct (N.ltb_spec c 48) as [L|L].
  - destruct (N.eqb_spec c 45) as [->|N1].
    + destruct r as [|c2 r2].
      { split; [discriminate|]. intros [H _]. apply numeral_shape in H. destruct H as (ds & [(E & _)|[(_ & E & _)|(E & _)]]); [discriminate|congruence|lia]. }
      rewrite Minus. split.
      * intros (ds & F & -> & B). split; [constructor; [discriminate|exact F]|exact B].
      * intros [H B]. apply numeral_shape in H. destruct H as (ds & [(E & _)|[(_ & _ & F & E)|(E & _)]]); [discriminate|eauto|lia].
    + destruct (N.eqb_spec c 43) as [->|N2]; cbn [negb].
      * destruct r as [|c2 r2].
        { split; [discriminate|]. intros [H _]. apply numeral_shape in H. destruct H as (ds & [(_ & E & _)|[(E & _)|(E & _)]]); [congruence|discriminate|lia]. }
        rewrite (Plain (c2 :: r2)). split.
        -- intros (ds & F & -> & B). split; [constructor; [discriminate|exact F]|exact B].
        -- intros [H B]. apply numeral_shape in H. destruct H as (ds & [(_ & _ & F & E)|[(E & _)|(E & _)]]); [eauto|discriminate|lia].
      * split; [discriminate|]. intros [H _]. apply numeral_shape in H. destruct H as (ds & [(E & _)|[(E & _)|(E & _)]]); [congruence|congruence|lia].
  - rewrite (Plain (c :: r)). split.
    + intros (ds & F & -> & B). split; [constructor; [discriminate|exact F]|exact B].
    + intros [H B]. apply numeral_shape in H. destruct H as (ds & [(E & _)|[(E & _)|(E & F & V)]]); [lia|lia|eauto].
Qed.
Lemma loop_error L x a e : parse_loop L a x = Err e -> e = ValueError.
Proof.
  revert a. induction x as [|c x IH]; intros a; cbn [parse_loop]; [discriminate|]. destruct (_ <? 0); [congruence|]. destruct (_ <? _); [congruence|]. destruct (_ <? _); [congruence|]. apply IH.
Qed.
Theorem parse_error m x e : java_parse m x = Err e -> e = ValueError.
Proof.
  unfold java_parse. destruct x as [[|c r]|]; [congruence| |congruence].
  destruct (c <? 48)%N; [destruct (c =? 45)%N; [|destruct (negb (c =? 43)%N)]; try congruence; destruct r; try congruence|]; try (apply loop_error);
  match goal with |- context [parse_loop ?a ?b ?c] => destruct (parse_loop a b c) as [v|x] eqn:E end; cbn [rbind]; try discriminate; intros H; injection H as <-; eapply loop_error; exact E.
Qed.
Definition dval (c : N) : Z := Z.of_N c - 48.
Lemma ascii_digit c : is_digit c -> digit c (dval c).
Proof. unfold is_digit, dval. intros H. exists 48%N. split; [left; reflexivity|]. lia. Qed.
Lemma decimal_number x : Forall is_digit x -> Forall2 digit x (map dval x) /\ forall a, number_of a (map dval x) = fold_left digit_value x a.
Proof. induction 1 as [|c x D H IH]; [split; [constructor|reflexivity]|]. destruct IH as [F E]. split; [cbn; constructor; [apply ascii_digit, D|exact F]|]. intros a. cbn [map number_of fold_left]. rewrite E. f_equal. unfold digit_value, dval. lia. Qed.
Lemma str_int_numeral i : numeral (str_int i) i.
Proof.
  assert (P : forall k, 0 <= k -> numeral (str_int k) k /\ Forall2 digit (str_int k) (map dval (str_int k)) /\ number_of 0 (map dval (str_int k)) = k /\ str_int k <> []).
  { intros k L. destruct (str_int_ok k L) as (D & F & N). destruct (decimal_number _ F) as [G E]. assert (E0 : number_of 0 (map dval (str_int k)) = k) by (rewrite E; exact D).
    split; [|auto]. rewrite <- E0 at 2. constructor; assumption. }
  destruct (Z.ltb_spec i 0) as [L|L]; [|apply P; lia].
  destruct (P (- i) ltac:(lia)) as (_ & F & E & N). unfold str_int in *. destruct (Z.ltb_spec (- i) 0); [lia|]. destruct (Z.ltb_spec i 0); [|lia].
  replace i with (- (number_of 0 (map dval (str_nat (Z.to_N (- i)))))) at 2 by lia. constructor; assumption.
Qed.
Theorem int_again m i : 1 <= m -> - m <= i < m -> java_parse m (Some (str_int i)) = Ok i.
Proof. intros P R. apply parse_exact; [exact P|]. split; [apply str_int_numeral|exact R]. Qed.

(** ** Base64 *)
Lemma sextet_char k : (k < 64)%N -> sextet (b64_char k) = Some k.
Proof.
  intros L. assert (H : forallb (fun n => match sextet (b64_char (N.of_nat n)) with Some q => N.eqb q (N.of_nat n) | None => false end) (seq 0 64) = true) by (vm_compute; reflexivity).
  rewrite forallb_forall in H. specialize (H (N.to_nat k)). rewrite N2Nat.id in H. specialize (H ltac:(apply in_seq; lia)). destruct (sextet (b64_char k)) as [q|]; [|discriminate]. apply N.eqb_eq in H. congruence.
Qed.
Lemma unbase64_step a b c d p q r t x l : sextet a = Some p -> sextet b = Some q -> sextet c = Some r -> sextet d = Some t -> unbase64 x = Some l ->
  unbase64 (a :: b :: c :: d :: x) = Some ([(((p * 64 + q) * 64 + r) * 64 + t) / 65536; (((p * 64 + q) * 64 + r) * 64 + t) / 256 mod 256; (((p * 64 + q) * 64 + r) * 64 + t) mod 256] ++ l)%N.
Proof.
  intros A B C D X. destruct x as [|x1 x].
  - cbn in X. injection X as <-. cbn [unbase64]. rewrite A, B, C, D. rewrite app_nil_r. reflexivity.
  - remember (x1 :: x) as y. cbn [unbase64]. rewrite Heqy at 1. rewrite A, B, C, D, X. reflexivity.
Qed.
Ltac dm a n := pose proof (N.div_mod' a n); pose proof (N.mod_lt a n ltac:(lia)); pose proof (N.le_0_l (a mod n)); pose proof (N.le_0_l (a / n)).
Theorem base64_back : forall x, bytes8 x -> unbase64 (base64 x) = Some x.
Proof.
  assert (G : forall n x, (length x <= n)%nat -> bytes8 x -> unbase64 (base64 x) = Some x).
  { induction n as [|n IH]; intros x L F; [destruct x; [reflexivity|cbn in L; lia]|].
    assert (P : forall a b, (a < 256 -> b < 256 -> a / 4 < 64 /\ (a mod 4) * 16 + b / 16 < 64 /\ (a mod 4) * 16 < 64)%N).
    { intros a b A B. dm a 4%N. dm b 16%N. lia. }
    assert (Q : forall b c, (b < 256 -> c < 256 -> (b mod 16) * 4 + c / 64 < 64 /\ c mod 64 < 64 /\ (b mod 16) * 4 < 64)%N).
    { intros b c A B. dm b 16%N. dm c 64%N. lia. }
    destruct x as [|a [|b [|c x]]]; [reflexivity| | |]; cbn [base64].
    - inversion F as [|? ? A _]; subst. destruct (P a 0%N A ltac:(lia)) as (H1 & _ & H2). cbn [unbase64]. rewrite (sextet_char _ H1), (sextet_char _ H2). change (sextet 61) with (@None N). cbn [N.eqb Pos.eqb andb]. f_equal. f_equal.
      dm a 4%N. symmetry. apply (N.div_unique _ _ _ 0); lia.
    - inversion F as [|? ? A F2]; subst. inversion F2 as [|? ? B _]; subst. destruct (P a b A B) as (H1 & H2 & _). destruct (Q b 0%N B ltac:(lia)) as (_ & _ & H3).
      cbn [unbase64]. rewrite (sextet_char _ H1), (sextet_char _ H2), (sextet_char _ H3). change (sextet 61) with (@None N). cbn [N.eqb Pos.eqb].
      dm a 4%N. dm b 16%N.
      assert (E : ((a / 4 * 64 + (a mod 4 * 16 + b / 16)) * 64 + b mod 16 * 4 = 4 * (a * 256 + b))%N) by lia. rewrite E. f_equal. f_equal; [|f_equal].
      + symmetry. apply (N.div_unique _ _ _ (4 * b)); lia.
      + rewrite (N.mul_comm 4), N.div_mul by lia. symmetry. apply (N.mod_unique _ _ a); lia.
    - inversion F as [|? ? A F2]; subst. inversion F2 as [|? ? B F3]; subst. inversion F3 as [|? ? C F4]; subst. destruct (P a b A B) as (H1 & H2 & _). destruct (Q b c B C) as (H3 & H4 & _).
      rewrite (unbase64_step _ _ _ _ _ _ _ _ _ x (sextet_char _ H1) (sextet_char _ H2) (sextet_char _ H3) (sextet_char _ H4)); [|apply IH; [cbn in L; lia|exact F4]].
      dm a 4%N. dm b 16%N. dm c 64%N.
      assert (E : (((a / 4 * 64 + (a mod 4 * 16 + b / 16)) * 64 + (b mod 16 * 4 + c / 64)) * 64 + c mod 64 = (a * 256 + b) * 256 + c)%N) by lia. rewrite E. cbn [app].
      f_equal. f_equal; [|f_equal; [|f_equal]].
      + symmetry. apply (N.div_unique _ _ _ (b * 256 + c)); lia.
      + replace (((a * 256 + b) * 256 + c) / 256)%N with (a * 256 + b)%N; [symmetry; apply (N.mod_unique _ _ a); lia|]. apply (N.div_unique _ _ _ c); lia.
      + symmetry. apply (N.mod_unique _ _ (a * 256 + b)); lia. }
  intros x F. exact (G (length x) x (le_n _) F).
Qed.
Theorem base64_length x : zlen (base64 x) = 4 * ((zlen x + 2) / 3).
Proof.
  assert (G : forall n x, (length x <= n)%nat -> zlen (base64 x) = 4 * ((zlen x + 2) / 3)).
  { induction n as [|n IH]; intros y L; [destruct y; [reflexivity|cbn in L; lia]|]. destruct y as [|a [|b [|c y]]]; try reflexivity. cbn [base64]. cbn in L. specialize (IH y ltac:(lia)). unfold zlen in *. cbn [length].
    replace (Z.of_nat (S (S (S (length y)))) + 2) with (Z.of_nat (length y) + 2 + 1 * 3) by lia. rewrite Z.div_add by lia. lia. }
  exact (G _ x (le_n _)).
Qed.
