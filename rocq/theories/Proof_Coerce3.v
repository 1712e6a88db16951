(** Proofs about int() of a text and repr() of bytes. *)
From Verif Require Import PyBase PyBaseFacts Model_Text Model_Heap Model_Layer Model_Types Model_Query Model_Coerce Spec_Layer Spec_Msgpack Spec_Query Spec_Coerce.
Local Open Scope Z_scope.

Lemma is_blank_spec c : is_blank c = true <-> blank c.
Proof. unfold is_blank, blank. rewrite orb_true_iff, andb_true_iff, !N.leb_le, N.eqb_eq. lia. Qed.
Lemma is_digit_spec c : is_digit c = true <-> exists d, c = (48 + d)%N /\ (d < 10)%N.
Proof. unfold is_digit. rewrite andb_true_iff, !N.leb_le. split; [intros H; exists (c - 48)%N; lia|intros (d & -> & H); lia]. Qed.
Lemma drop_blanks_app a x : Forall blank a -> drop_blanks (a ++ x) = drop_blanks x.
Proof. induction 1 as [|c a Hc Ha IH]; [reflexivity|]. apply is_blank_spec in Hc. cbn [app drop_blanks]. rewrite Hc. exact IH. Qed.
Lemma drop_blanks_all a : Forall blank a -> drop_blanks a = [].
Proof. intros H. rewrite <- (app_nil_r a), drop_blanks_app by exact H. reflexivity. Qed.
Lemma drop_blanks_stop c x : ~ blank c -> drop_blanks (c :: x) = c :: x.
Proof. intros H. cbn [drop_blanks]. destruct (is_blank c) eqn:E; [apply is_blank_spec in E; contradiction|reflexivity]. Qed.
Lemma drop_blanks_inv x : exists a, x = a ++ drop_blanks x /\ Forall blank a.
Proof.
  induction x as [|c x (a & E & F)]; [exists []; split; [reflexivity|constructor]|]. cbn [drop_blanks]. destruct (is_blank c) eqn:B.
  - exists (c :: a). split; [cbn [app]; congruence|]. constructor; [apply is_blank_spec, B|exact F].
  - exists []. split; [reflexivity|constructor].
Qed.
Lemma decimal_snoc ds d : decimal (ds ++ [d]) = 10 * decimal ds + Z.of_N d.
Proof. unfold decimal. rewrite fold_left_app. reflexivity. Qed.
Lemma read_digit after d r acc : (d < 10)%N -> read_digits after ((48 + d)%N :: r) acc = read_digits true r (acc ++ [d]).
Proof.
  intros H. cbn [read_digits]. replace (is_digit (48 + d)) with true by (symmetry; apply is_digit_spec; eauto). replace (48 + d - 48)%N with d by lia. reflexivity.
Qed.
Lemma read_numeral t k : numeral t k -> exists ds, decimal ds = k /\ (length ds <= length t)%nat /\ forall rest, read_digits false (t ++ rest) [] = read_digits true rest ds.
Proof.
  induction 1 as [d Hd|x k d H (ds & E & Le & IH) Hd|x k d H (ds & E & Le & IH) Hd].
  - exists [d]. split; [unfold decimal; cbn [fold_left]; lia|]. split; [apply Nat.le_refl|]. intros rest. cbn [app]. rewrite read_digit by exact Hd. reflexivity.
  - exists (ds ++ [d]). split; [rewrite decimal_snoc; congruence|]. split; [rewrite !app_length; simpl; lia|]. intros rest. rewrite <- app_assoc, IH. cbn [app]. apply read_digit. exact Hd.
  - exists (ds ++ [d]). split; [rewrite decimal_snoc; congruence|]. split; [rewrite !app_length; simpl; lia|]. intros rest. rewrite <- app_assoc, IH. cbn [app].
    transitivity (read_digits false ((48 + d)%N :: rest) ds); [reflexivity|]. apply read_digit. exact Hd.
Qed.
(** what has been read before x *)
Definition read_so_far (after : bool) (p : pystr) (acc : list N) : Prop :=
  if after then numeral p (decimal acc) else (p = [] /\ acc = []) \/ exists p', p = p' ++ [95%N] /\ numeral p' (decimal acc).
Lemma read_digits_inv x : forall after p acc ds rest, read_so_far after p acc -> read_digits after x acc = Some (ds, rest) ->
  exists t, x = t ++ rest /\ numeral (p ++ t) (decimal ds).
Proof.
  induction x as [|c x IH]; intros after p acc ds rest S H; cbn [read_digits] in H.
  - destruct after; [|discriminate]. injection H as <- <-. exists []. split; [reflexivity|rewrite app_nil_r; exact S].
  - destruct (is_digit c) eqn:D.
    + apply is_digit_spec in D. destruct D as (d & -> & Hd). replace (48 + d - 48)%N with d in H by lia.
      destruct (IH true (p ++ [(48 + d)%N]) (acc ++ [d]) ds rest) as (t & E & Nt); [|exact H|].
      * cbn [read_so_far]. rewrite decimal_snoc. destruct after; cbn [read_so_far] in S; [apply nm_digit; assumption|].
        destruct S as [[-> ->]|(p' & -> & S)]; [apply nm_one; exact Hd|]. rewrite <- app_assoc. cbn [app]. apply nm_joined; assumption.
      * exists ((48 + d)%N :: t). split; [cbn [app]; congruence|]. rewrite <- app_assoc in Nt. exact Nt.
    + destruct (N.eqb_spec c 95) as [->|Nc].
      * destruct after; [|discriminate]. destruct (IH false (p ++ [95%N]) acc ds rest) as (t & E & Nt); [right; exists p; split; [reflexivity|exact S]|exact H|].
        exists (95%N :: t). split; [cbn [app]; congruence|]. rewrite <- app_assoc in Nt. exact Nt.
      * destruct after; [|discriminate]. injection H as <- <-. exists []. split; [reflexivity|rewrite app_nil_r; exact S].
Qed.
Lemma numeral_head t k : numeral t k -> exists d r, t = (48 + d)%N :: r /\ (d < 10)%N.
Proof.
  induction 1 as [d Hd|x k d H (e & r & -> & He) Hd|x k d H (e & r & -> & He) Hd]; [exists d, []|exists e, (r ++ [(48 + d)%N])|exists e, (r ++ [95%N; (48 + d)%N])]; split; auto.
Qed.
Lemma read_stop b ds : Forall blank b -> read_digits true b ds = Some (ds, b).
Proof.
  intros [|c b' Hc Hb]; [reflexivity|]. cbn [read_digits]. destruct (is_digit c) eqn:D; [apply is_digit_spec in D; destruct D as (d & -> & Hd); unfold blank in Hc; lia|].
  destruct (N.eqb_spec c 95) as [->|]; [unfold blank in Hc; lia|reflexivity].
Qed.
Definition signed (y : pystr) : bool * pystr := match y with c :: r => if (c =? 45)%N then (true, r) else if (c =? 43)%N then (false, r) else (false, y) | [] => (false, y) end.
Lemma int_text_eq x : int_text x = (let '(neg, z) := signed (drop_blanks x) in
  match read_digits false z [] with
  | None => Err ValueError
  | Some (ds, rest) => match drop_blanks rest with [] => if 4300 <? zlen ds then Err Unmodelled else Ok (if neg then - decimal ds else decimal ds) | _ :: _ => Err ValueError end
  end).
Proof. reflexivity. Qed.
Lemma int_text_ok x i : int_text x = Ok i -> spelled x i.
Proof.
  rewrite int_text_eq. intros H. destruct (drop_blanks_inv x) as (a & Ex & Fa). set (y := drop_blanks x) in *. clearbody y.
  destruct (signed y) as [neg z] eqn:Es. destruct (read_digits false z []) as [[ds rest]|] eqn:Er; [|discriminate].
  destruct (read_digits_inv z false [] [] ds rest (or_introl (conj eq_refl eq_refl)) Er) as (t & Ez & Nt). destruct (drop_blanks_inv rest) as (b & Eb & Fb).
  destruct (drop_blanks rest); [|discriminate]. rewrite app_nil_r in Eb. subst b. destruct (4300 <? zlen ds); [discriminate|]. injection H as <-. cbn [app] in Nt.
  assert (Y : exists sign, y = sign ++ z /\ (if neg then sign = [45%N] else sign = [] \/ sign = [43%N])).
  { unfold signed in Es. destruct y as [|c r]; [injection Es as <- <-; exists []; auto|]. destruct (N.eqb_spec c 45) as [->|]; [injection Es as <- <-; exists [45%N]; auto|].
    destruct (N.eqb_spec c 43) as [->|]; injection Es as <- <-; [exists [43%N]; auto|exists []; auto]. }
  destruct Y as (sign & Ey & Hs). exists a, sign, t, rest, (decimal ds). split; [congruence|]. split; [exact Fa|]. split; [exact Fb|]. split; [exact Nt|]. destruct neg; [right|left]; auto.
Qed.
Lemma int_text_spelled x i : spelled x i -> exists ds : list N, int_text x = (if 4300 <? zlen ds then Err Unmodelled else Ok i) /\ zlen ds <= zlen x.
Proof.
  intros (a & sign & t & b & k & Ex & Fa & Fb & Nt & Hs). destruct (read_numeral t k Nt) as (ds & Ed & Le & Rd). exists ds. split.
  2: { subst x. unfold zlen. rewrite !app_length. lia. }
  rewrite int_text_eq. subst x. rewrite drop_blanks_app by exact Fa. destruct (numeral_head t k Nt) as (d & r & Et & Hd).
  assert (Y : drop_blanks (sign ++ t ++ b) = sign ++ t ++ b /\ signed (sign ++ t ++ b) = (match sign with [45%N] => true | _ => false end, t ++ b)).
  { destruct Hs as [[_ [->| ->]]|[_ ->]]; cbn [app].
    - rewrite Et. cbn [app]. split; [apply drop_blanks_stop; unfold blank; lia|]. cbn [signed]. destruct (N.eqb_spec (48 + d) 45); [lia|]. destruct (N.eqb_spec (48 + d) 43); [lia|reflexivity].
    - split; reflexivity.
    - split; reflexivity. }
  destruct Y as [Y1 Y2]. rewrite Y1, Y2. rewrite Rd, read_stop by exact Fb. rewrite drop_blanks_all by exact Fb. rewrite Ed. destruct Hs as [[-> [->| ->]]|[-> ->]]; reflexivity.
Qed.
Lemma int_text_error x e : int_text x = Err e -> (e = ValueError /\ ~ exists i, spelled x i) \/ (e = Unmodelled /\ 4300 < zlen x).
Proof.
  intros H. assert (C : e = ValueError \/ e = Unmodelled).
  { rewrite int_text_eq in H. destruct (signed _) as [neg z]. destruct (read_digits false z []) as [[ds rest]|]; [|injection H as <-; auto]. destruct (drop_blanks rest); [|injection H as <-; auto].
    destruct (4300 <? zlen ds); [injection H as <-; auto|discriminate]. }
  destruct C as [->| ->]; [left|right]; split; try reflexivity.
  - intros (i & S). destruct (int_text_spelled x i S) as (ds & E & _). rewrite E in H. destruct (4300 <? zlen ds); discriminate.
  - rewrite int_text_eq in H. destruct (drop_blanks_inv x) as (a & Ex & Fa). set (y := drop_blanks x) in *. clearbody y. destruct (signed y) as [neg z] eqn:Es. destruct (read_digits false z []) as [[ds rest]|] eqn:Er; [|discriminate].
    destruct (read_digits_inv z false [] [] ds rest (or_introl (conj eq_refl eq_refl)) Er) as (t & Ez & Nt). cbn [app] in Nt. destruct (read_numeral t _ Nt) as (ds' & _ & Le & Rd). rewrite Ez, Rd in Er.
    destruct (drop_blanks rest) eqn:Db; [|discriminate]. destruct (drop_blanks_inv rest) as (b & Eb & Fb). rewrite Db, app_nil_r in Eb. subst b. rewrite read_stop in Er by exact Fb. injection Er as <-.
    destruct (Z.ltb_spec 4300 (zlen ds')); [|discriminate]. assert (length z <= length y)%nat.
    { unfold signed in Es. destruct y as [|c r]; [injection Es as _ <-; auto|]. destruct (c =? 45)%N; [injection Es as _ <-; simpl; lia|]. destruct (c =? 43)%N; injection Es as _ <-; simpl; lia. }
    subst z x. unfold zlen in *. rewrite !app_length in *. lia.
Qed.
Lemma ascii_spec x : ascii x = true <-> is_ascii x.
Proof. unfold ascii, is_ascii. rewrite forallb_forall, Forall_forall. setoid_rewrite N.ltb_lt. reflexivity. Qed.
Lemma spelled_ascii x i : spelled x i -> is_ascii x.
Proof.
  assert (B : forall a, Forall blank a -> Forall (fun c => (c < 128)%N) a) by (intros a; apply Forall_impl; unfold blank; lia).
  assert (D : forall t k, numeral t k -> Forall (fun c => (c < 128)%N) t).
  { induction 1 as [d Hd|y k d H IH Hd|y k d H IH Hd]; [|apply Forall_app; split; [exact IH|]..]; repeat constructor; lia. }
  intros (a & sign & t & b & k & -> & Fa & Fb & Nt & Hs). unfold is_ascii. rewrite !Forall_app. split; [auto|]. split; [|split; eauto]. destruct Hs as [[_ [->| ->]]|[_ ->]]; repeat constructor; lia.
Qed.

(** ** repr of bytes *)
Lemma hex_digit_ok k : (k < 16)%N -> hex_digit k = hex k.
Proof.
  intros H. assert (I : In k (map N.of_nat (seq 0 16))) by (apply in_map_iff; exists (N.to_nat k); split; [lia|apply in_seq; lia]).
  simpl in I. repeat (destruct I as [<-|I]; [reflexivity|]). destruct I.
Qed.
Lemma byte_text_ok quote c : (quote = 34 \/ quote = 39)%N -> (c < 256)%N -> byte_shown quote c (byte_text quote c).
Proof.
  intros Hq Hc. unfold byte_text. destruct (N.eqb_spec c quote) as [->|Nq]; [apply bs_quote; auto|]. destruct (N.eqb_spec c 92) as [->|Nb]; [apply bs_quote; auto|]. cbn [orb].
  destruct (N.eqb_spec c 9) as [->|N9]; [constructor|]. destruct (N.eqb_spec c 10) as [->|N10]; [constructor|]. destruct (N.eqb_spec c 13) as [->|N13]; [constructor|].
  destruct ((c <? 32)%N || (127 <=? c)%N) eqn:E.
  - assert (B : (c < 32 \/ 127 <= c)%N) by (apply orb_prop in E; destruct E as [E|E]; [apply N.ltb_lt in E|apply N.leb_le in E]; auto).
    assert (D : (c = 16 * (c / 16) + c mod 16)%N) by (apply N.div_mod; discriminate). assert (M : (c mod 16 < 16)%N) by (apply N.mod_lt; discriminate).
    assert (Q : (c / 16 < 16)%N) by (apply N.div_lt_upper_bound; [discriminate|exact Hc]).
    rewrite !hex_digit_ok by assumption. set (a := (c / 16)%N) in *. set (b := (c mod 16)%N) in *. clearbody a b. subst c. apply bs_hex; try assumption. intros I. repeat (destruct I as [I|I]; [congruence|]). exact I.
  - apply orb_false_elim in E. destruct E as [E1 E2]. apply N.ltb_ge in E1. apply N.leb_gt in E2. apply bs_plain; auto.
Qed.
Lemma existsb_eq k x : existsb (N.eqb k) x = true <-> In k x.
Proof. rewrite existsb_exists. split; [intros (y & I & E); apply N.eqb_eq in E; congruence|intros I; exists k; split; [exact I|apply N.eqb_refl]]. Qed.
Lemma bytes_repr_ok x : bytes x -> bytes_shown x (bytes_repr x).
Proof.
  intros B. unfold bytes_repr. set (quote := if _ : bool then 34%N else 39%N). exists quote, (map (byte_text quote) x). split; [rewrite flat_map_concat_map; reflexivity|].
  assert (Hq : (quote = 34 \/ quote = 39)%N) by (unfold quote; destruct (_ && _); auto). split.
  - clearbody quote. unfold bytes in B. induction B as [|c x Hc Hx IH]; [constructor|]. cbn [map]. constructor; [apply byte_text_ok; assumption|exact IH].
  - unfold quote. destruct (existsb (N.eqb 39) x) eqn:E1; cbn [andb].
    + destruct (existsb (N.eqb 34) x) eqn:E2; cbn [negb]; [right|left].
      * split; [reflexivity|]. intros _. apply existsb_eq, E2.
      * split; [reflexivity|]. split; [apply existsb_eq, E1|]. intros I. apply existsb_eq in I. congruence.
    + right. split; [reflexivity|]. intros I. apply existsb_eq in I. congruence.
Qed.
