(** Representations can be read back. *)
From Verif Require Import PyBase PyBaseFacts Model_Text Model_Heap Model_Types Model_Printout Model_Query Model_Coerce Model_Codec Model_PyRepr Spec_Printout Spec_Xml Spec_PyRepr Proof_Xml Proof_Msgpack.
Local Open Scope Z_scope.

(** ** string literals *)
Lemma hex_digit_ok v : (v < 16)%N -> is_hex (Model_Coerce.hex_digit v) /\ hex_of (Model_Coerce.hex_digit v) = v.
Proof.
  intros L. unfold Model_Coerce.hex_digit, is_hex, hex_of. destruct (N.ltb_spec v 10).
  - destruct (N.ltb_spec (48 + v) 58); [|lia]. split; lia.
  - destruct (N.ltb_spec (87 + v) 58); [lia|]. split; lia.
Qed.
Lemma hex_digits_ok k : forall c, (c < 16 ^ N.of_nat k)%N -> length (hex_digits k c) = k /\ Forall is_hex (hex_digits k c) /\ hexes (hex_digits k c) = c.
Proof.
  induction k as [|k IH]; intros c L; [cbn in *; repeat split; [constructor|lia]|]. cbn [hex_digits].
  assert (L1 : (c / 16 < 16 ^ N.of_nat k)%N). { apply N.div_lt_upper_bound; [lia|]. replace (N.of_nat (S k)) with (N.succ (N.of_nat k)) in L by lia. rewrite N.pow_succ_r' in L. exact L. }
  destruct (IH _ L1) as (A & B & C). pose proof (N.mod_upper_bound c 16 ltac:(lia)) as M. destruct (hex_digit_ok _ M) as [D E].
  split; [rewrite app_length, A; simpl; lia|]. split; [apply Forall_app; split; [exact B|constructor; [exact D|constructor]]|].
  unfold hexes in *. rewrite fold_left_app, C. cbn [fold_left]. rewrite E. pose proof (N.div_mod c 16 ltac:(lia)). lia.
Qed.
Lemma hex_piece q e (k : nat) c : In (e, Z.of_nat k) [(120%N, 2); (117%N, 4); (85%N, 8)] -> (c < 16 ^ N.of_nat k)%N -> piece q (92%N :: e :: hex_digits k c) c.
Proof.
  intros I L. destruct (hex_digits_ok k c L) as (A & B & C). rewrite <- C at 2. apply (pc_hex q e (Z.of_nat k)); [exact I|unfold zlen; rewrite A; reflexivity|exact B].
Qed.
Lemma char_piece printable q c : (c < 1114112)%N -> q = 34%N \/ q = 39%N -> piece q (char_repr printable q c) c.
Proof.
  intros L Q. unfold char_repr. destruct (N.eqb_spec c q) as [->|N1]; [cbn [orb]; constructor; left; reflexivity|].
  destruct (N.eqb_spec c 92) as [->|N2]; [cbn [orb]; constructor; right; left; reflexivity|]. cbn [orb].
  destruct (N.eqb_spec c 9) as [->|N3]; [apply pc_escape; simpl; auto|]. destruct (N.eqb_spec c 10) as [->|N4]; [apply pc_escape; simpl; auto|].
  destruct (N.eqb_spec c 13) as [->|N5]; [apply pc_escape; simpl; auto 6|].
  destruct (N.ltb_spec c 32) as [L1|L1]; [cbn [orb]; apply (hex_piece q 120%N 2); [left; reflexivity|cbn; lia]|].
  destruct (N.eqb_spec c 127) as [->|N6]; [cbn [orb]; apply (hex_piece q 120%N 2); [left; reflexivity|cbn; lia]|]. cbn [orb].
  destruct (N.ltb_spec c 127) as [L2|L2]; [constructor; assumption|]. destruct (printable c); [constructor; assumption|].
  destruct (N.ltb_spec c 256) as [L3|L3]; [apply (hex_piece q 120%N 2); [left; reflexivity|cbn; lia]|].
  destruct (N.ltb_spec c 65536) as [L4|L4]; [apply (hex_piece q 117%N 4); [right; left; reflexivity|cbn; lia]|].
  apply (hex_piece q 85%N 8); [right; right; left; reflexivity|cbn; lia].
Qed.
Lemma quote_choice (x : pystr) : let q := if existsb (N.eqb 39) x && negb (existsb (N.eqb 34) x) then 34%N else 39%N in
  (q = 34%N /\ In 39%N x /\ ~ In 34%N x) \/ (q = 39%N /\ (In 39%N x -> In 34%N x)).
Proof.
  assert (E : forall k, existsb (N.eqb k) x = true <-> In k x).
  { intros k. rewrite existsb_exists. split; [intros (y & I & H); apply N.eqb_eq in H; subst; exact I|intros I; exists k; split; [exact I|apply N.eqb_refl]]. }
  cbv zeta. destruct (existsb (N.eqb 39) x) eqn:E1; destruct (existsb (N.eqb 34) x) eqn:E2; cbn [andb negb].
  - right. split; [reflexivity|]. intros _. apply E, E2.
  - left. split; [reflexivity|]. split; [apply E, E1|]. intros I. apply E in I. congruence.
  - right. split; [reflexivity|]. intros _. apply E, E2.
  - right. split; [reflexivity|]. intros I. apply E in I. congruence.
Qed.
Lemma pieces_of (f : N -> pystr) q x : Forall (fun c => piece q (f c) c) x -> Forall2 (piece q) (map f x) x.
Proof. induction 1; constructor; assumption. Qed.
Lemma str_literal printable x : chars x -> literal x (str_repr printable x).
Proof.
  intros C. unfold str_repr. pose proof (quote_choice x) as Q. cbv zeta in *. set (q := if _ && _ then _ else _) in *.
  exists q, (map (char_repr printable q) x). split; [exact Q|]. split; [|rewrite flat_map_concat_map; reflexivity].
  apply pieces_of. unfold chars in C. rewrite Forall_forall in *. intros c I. apply char_piece; [apply C, I|tauto].
Qed.
Lemma byte_piece q c : (c < 256)%N -> q = 34%N \/ q = 39%N -> piece q (byte_text q c) c.
Proof.
  intros L Q. unfold byte_text. destruct (N.eqb_spec c q) as [->|N1]; [cbn [orb]; constructor; left; reflexivity|].
  destruct (N.eqb_spec c 92) as [->|N2]; [cbn [orb]; constructor; right; left; reflexivity|]. cbn [orb].
  destruct (N.eqb_spec c 9) as [->|N3]; [apply pc_escape; simpl; auto|]. destruct (N.eqb_spec c 10) as [->|N4]; [apply pc_escape; simpl; auto|].
  destruct (N.eqb_spec c 13) as [->|N5]; [apply pc_escape; simpl; auto 6|].
  assert (H2 : hex_digits 2 c = [Model_Coerce.hex_digit (c / 16); Model_Coerce.hex_digit (c mod 16)]).
  { cbn [hex_digits app]. rewrite (N.mod_small (c / 16) 16); [reflexivity|]. apply N.div_lt_upper_bound; lia. }
  destruct (N.ltb_spec c 32) as [L1|L1]; [cbn [orb]; rewrite <- H2; apply (hex_piece q 120%N 2); [left; reflexivity|cbn; lia]|]. cbn [orb].
  destruct (N.leb_spec 127 c) as [L2|L2]; [rewrite <- H2; apply (hex_piece q 120%N 2); [left; reflexivity|cbn; lia]|].
  constructor; lia.
Qed.
Lemma bytes_literal x : Forall (fun c => (c < 256)%N) x -> exists t, bytes_repr x = s "b" ++ t /\ literal x t.
Proof.
  intros C. unfold bytes_repr. pose proof (quote_choice x) as Q. cbv zeta in *. set (q := if _ && _ then _ else _) in *.
  eexists. split; [reflexivity|]. exists q, (map (byte_text q) x). split; [exact Q|]. split; [|rewrite flat_map_concat_map; reflexivity].
  apply pieces_of. rewrite Forall_forall in *. intros c I. apply byte_piece; [apply C, I|tauto].
Qed.
(** ** and back *)
Lemma app_same_length {A} (x y a b : list A) : length x = length y -> x ++ a = y ++ b -> x = y /\ a = b.
Proof. revert y. induction x as [|u x IH]; intros [|v y] L E; simpl in *; try discriminate; [auto|]. injection E as -> E. destruct (IH y ltac:(lia) E) as [-> ->]. auto. Qed.
Lemma piece_back q p c p' c' a b : q = 34%N \/ q = 39%N -> piece q p c -> piece q p' c' -> p ++ a = p' ++ b -> p = p' /\ c = c' /\ a = b.
Proof.
  intros Q H H' E. inversion H as [d N1 N2 N3 N4|e d I|e k ds I L F]; inversion H' as [d' N1' N2' N3' N4'|e' d' I'|e' k' ds' I' L' F']; subst; cbn [app] in E; try (injection E as ? ?; congruence).
  - injection E as -> ->. auto.
  - injection E as -> ->. split; [reflexivity|]. split; [|reflexivity]. simpl in I, I'. intuition congruence.
  - exfalso. injection E as -> E. simpl in I, I'. intuition congruence.
  - exfalso. injection E as -> E. simpl in I, I'. intuition congruence.
  - injection E as -> E. assert (zlen ds = zlen ds') as L by (simpl in I, I'; intuition congruence). destruct (app_same_length ds ds' a b ltac:(unfold zlen in L; lia) E) as [-> ->]. auto.
Qed.
Lemma piece_start q p c : q = 34%N \/ q = 39%N -> piece q p c -> exists d r, p = d :: r /\ d <> q.
Proof. intros Q H. inversion H; subst; eexists; eexists; (split; [reflexivity|]); try assumption; destruct Q; subst; discriminate. Qed.
Lemma pieces_back q ps x : q = 34%N \/ q = 39%N -> Forall2 (piece q) ps x -> forall ps' x' a b, Forall2 (piece q) ps' x' -> List.concat ps ++ [q] ++ a = List.concat ps' ++ [q] ++ b -> x = x' /\ a = b.
Proof.
  intros Q. induction 1 as [|p c ps x Hp H IH]; intros ps' x' a b H' E; destruct H' as [|p' c' ps' x' Hp' H'].
  - injection E as ->. auto.
  - exfalso. destruct (piece_start q p' c' Q Hp') as (d & r & -> & N). cbn in E. congruence.
  - exfalso. destruct (piece_start q p c Q Hp) as (d & r & -> & N). cbn in E. congruence.
  - cbn [List.concat] in E. rewrite <- !app_assoc in E. destruct (piece_back q _ _ _ _ _ _ Q Hp Hp' E) as (_ & -> & E'). destruct (IH _ _ _ _ H' E') as [-> ->]. auto.
Qed.
Lemma literal_back x t x' t' a b : literal x t -> literal x' t' -> t ++ a = t' ++ b -> x = x' /\ a = b.
Proof.
  intros (q & ps & Q & F & ->) (q' & ps' & Q' & F' & ->) E. rewrite <- !app_assoc in E. cbn [app] in E. injection E as <- E.
  apply (pieces_back q ps x ltac:(tauto) F ps' x' a b F' E).
Qed.
Lemma literal_head x t : literal x t -> exists q r, t = q :: r /\ (q = 34%N \/ q = 39%N).
Proof. intros (q & ps & Q & F & ->). exists q. eexists. split; [reflexivity|tauto]. Qed.

(** ** numbers *)
Definition stops (a : pystr) : Prop := match a with c :: _ => ~ is_digit c | [] => True end.
Lemma digits_back y : forall y' a b, Forall is_digit y -> Forall is_digit y' -> stops a -> stops b -> y ++ a = y' ++ b -> y = y' /\ a = b.
Proof.
  induction y as [|c y IH]; intros [|c' y'] a b F F' A B E; cbn [app] in E.
  - auto.
  - exfalso. subst a. inversion F'; subst. exact (A H1).
  - exfalso. subst b. inversion F; subst. exact (B H1).
  - injection E as <- E. inversion F; inversion F'; subst. destruct (IH y' a b) as [-> ->]; auto.
Qed.
Lemma int_back i t i' t' a b : int_text i t -> int_text i' t' -> stops a -> stops b -> t ++ a = t' ++ b -> i = i' /\ a = b.
Proof.
  unfold int_text. intros H H' A B E. destruct (Z.ltb_spec i 0) as [L|L]; destruct (Z.ltb_spec i' 0) as [L'|L'].
  - destruct H as (y & -> & D & F & _). destruct H' as (y' & -> & D' & F' & _). injection E as E. destruct (digits_back y y' a b F F' A B E) as [-> ->]. split; [lia|reflexivity].
  - destruct H as (y & -> & D & F & _). destruct H' as (D' & F' & N' & _). destruct t' as [|c r]; [congruence|]. cbn in E. injection E as <- E. inversion F'; subst. unfold is_digit in *. lia.
  - destruct H' as (y & -> & D & F & _). destruct H as (D' & F' & N' & _). destruct t as [|c r]; [congruence|]. cbn in E. injection E as -> E. inversion F'; subst. unfold is_digit in *. lia.
  - destruct H as (D & F & _). destruct H' as (D' & F' & _). destruct (digits_back t t' a b F F' A B E) as [-> ->]. split; [congruence|reflexivity].
Qed.

(** ** values *)
Lemma value_ok printable v t : shown_value v -> value_repr printable v = Ok t -> value_text v t.
Proof.
  intros S H. destruct v; cbn [value_repr] in H; try discriminate.
  - injection H as <-. constructor.
  - injection H as <-. constructor.
  - destruct (4300 <? _); [discriminate|]. injection H as <-. constructor. apply str_int_text.
  - injection H as <-. constructor. apply str_literal. exact S.
  - injection H as <-. destruct (bytes_literal x S) as (t & -> & L). constructor. exact L.
Qed.
Definition kind (c : N) : nat := if (c =? 78)%N then 0 else if (c =? 84)%N then 1 else if (c =? 70)%N then 2 else if (c =? 98)%N then 3 else if (c =? 34)%N || (c =? 39)%N then 4 else 5.
Definition vkind (v : value) : nat := match v with VNone => 0 | VBool true => 1 | VBool false => 2 | VBytes _ => 3 | VStr _ => 4 | _ => 5 end.
Lemma value_head v t : value_text v t -> exists c r, t = c :: r /\ kind c = vkind v.
Proof.
  intros H. inversion H as [|b|i u L|x u L|x u L]; subst.
  - eexists; eexists; split; reflexivity.
  - destruct b; eexists; eexists; split; reflexivity.
  - unfold int_text in L. destruct (i <? 0).
    + destruct L as (y & -> & _). eexists; eexists; split; reflexivity.
    + destruct L as (_ & F & N & _). destruct t as [|c r]; [congruence|]. exists c, r. split; [reflexivity|]. inversion F; subst. unfold is_digit in *. unfold kind, vkind.
      repeat match goal with |- context [(?a =? ?b)%N] => destruct (N.eqb_spec a b); [lia|] end. reflexivity.
  - destruct (literal_head _ _ L) as (q & r & -> & [->| ->]); eexists; eexists; split; reflexivity.
  - eexists; eexists; split; reflexivity.
Qed.
Lemma value_back v t v' t' a b : value_text v t -> value_text v' t' -> stops a -> stops b -> t ++ a = t' ++ b -> v = v' /\ a = b.
Proof.
  intros H H' A B E. destruct (value_head _ _ H) as (c & r & E1 & K). destruct (value_head _ _ H') as (c' & r' & E1' & K').
  assert (c = c') as Ec by (subst t t'; cbn in E; congruence). rewrite Ec, K' in K. clear c c' r r' E1 E1' K' Ec.
  inversion H as [|x|i u L|x u L|x u L]; inversion H' as [|x'|i' u' L'|x' u' L'|x' u' L']; subst; cbn [vkind] in K; try (destruct x; discriminate); try (destruct x'; discriminate); try discriminate.
  - apply app_inv_head in E. auto.
  - destruct x, x'; try discriminate; apply app_inv_head in E; auto.
  - destruct (int_back _ _ _ _ _ _ L L' A B E) as [-> ->]. auto.
  - destruct (literal_back _ _ _ _ _ _ L L' E) as [-> ->]. auto.
  - rewrite <- !app_assoc in E. apply app_inv_head in E. destruct (literal_back _ _ _ _ _ _ L L' E) as [-> ->]. auto.
Qed.
Lemma name_back k (f f' a b : pystr) : ~ In k f -> ~ In k f' -> f ++ k :: a = f' ++ k :: b -> f = f' /\ a = b.
Proof.
  revert f'. induction f as [|c f IH]; intros [|c' f'] N N' E; cbn in *.
  - injection E as ->. auto.
  - injection E as <- _. tauto.
  - injection E as -> _. tauto.
  - injection E as -> E. destruct (IH f' ltac:(tauto) ltac:(tauto) E) as [-> ->]. auto.
Qed.

(** ** predicates *)
Section Pred.
Variable printable : N -> bool.
Lemma compare_back f g f' g' v v' t t' a b : ~ In 125%N f -> ~ In 125%N f' -> ~ In 32%N g -> ~ In 32%N g' -> shown_value v -> shown_value v' ->
  compare_repr printable f g v = Ok t -> compare_repr printable f' g' v' = Ok t' -> t ++ a = t' ++ b -> f = f' /\ g = g' /\ v = v' /\ a = b.
Proof.
  intros F F' G G' S S' H H' E. unfold compare_repr in *. destruct (value_repr printable v) as [u|] eqn:V; [|discriminate]. destruct (value_repr printable v') as [u'|] eqn:V'; [|discriminate].
  cbn [rbind] in H, H'. apply Ok_inj in H. apply Ok_inj in H'. subst t t'. apply value_ok in V; [|exact S]. apply value_ok in V'; [|exact S'].
  rewrite <- !app_assoc in E. apply app_inv_head in E.
  destruct (name_back 125%N f f' (s " " ++ g ++ s " " ++ u ++ s ")" ++ a) (s " " ++ g' ++ s " " ++ u' ++ s ")" ++ b) F F' E) as [-> E2]. apply app_inv_head in E2.
  destruct (name_back 32%N g g' (u ++ s ")" ++ a) (u' ++ s ")" ++ b) G G' E2) as [-> E3].
  destruct (value_back v u v' u' (s ")" ++ a) (s ")" ++ b) V V') as [-> E4]; [cbn; unfold is_digit; lia|cbn; unfold is_digit; lia|exact E3|].
  cbn [app] in E4. injection E4 as ->. auto.
Qed.
Definition compared (p : pred) : option (pystr * pystr * value) :=
  match p with
  | PEq f v => Some (f, s "==", v) | PNeq f v => Some (f, s "!=", v)
  | POrd o f v => Some (f, match o with OLt => s "<" | OLe => s "<=" | OGt => s ">" | OGe => s ">" end, v)
  | _ => None
  end.
Lemma compared_repr p f g v : compared p = Some (f, g, v) -> pred_repr printable p = compare_repr printable f g v /\ ~ In 32%N g /\ (shown_pred p -> ~ In 125%N f /\ shown_value v).
Proof.
  destruct p as [f0 v0|f0 v0|o f0 v0| | | | | | |]; intros H; try discriminate; injection H as <- <- <-; (split; [reflexivity|]); (split; [|intros X; exact X]); try (destruct o); vm_compute; intuition discriminate.
Qed.
Lemma compared_strict p q x : compared p = Some x -> compared q = Some x -> strict p = strict q.
Proof.
  destruct x as [[f g] v]. destruct p as [f0 v0|f0 v0|o f0 v0| | | | | | |]; intros H; try discriminate; destruct q as [f1 v1|f1 v1|o1 f1 v1| | | | | | |]; intros H'; try discriminate;
    injection H as -> Eg ->; injection H' as -> Eg' ->; rewrite <- Eg in Eg'; try (destruct o); try (destruct o1); vm_compute in Eg'; try discriminate; reflexivity.
Qed.
Lemma pred_back p : forall q t u a b, shown_pred p -> shown_pred q -> pred_repr printable p = Ok t -> pred_repr printable q = Ok u -> t ++ a = u ++ b -> strict p = strict q /\ a = b.
Proof.
  induction p; intros q t u a b S S' H H' E.
  1-3: match goal with |- strict ?p = _ /\ _ => destruct (compared p) as [[[f0 g0] v0]|] eqn:C; [|discriminate]; destruct (compared_repr p _ _ _ C) as (R & Ng & Sh) end.
  1-3: destruct (Sh S) as [Nf Sv]; rewrite R in H; destruct (compared q) as [[[f1 g1] v1]|] eqn:C';
    [destruct (compared_repr q _ _ _ C') as (R' & Ng' & Sh'); destruct (Sh' S') as [Nf' Sv']; rewrite R' in H'; destruct (compare_back f0 g0 f1 g1 v0 v1 t u a b Nf Nf' Ng Ng' Sv Sv' H H' E) as (-> & -> & -> & ->); split; [eapply compared_strict; eassumption|reflexivity]|].
  1-3: exfalso; unfold compare_repr in H; destruct (value_repr printable v0); [|discriminate]; injection H as <-; destruct q; try discriminate C'; cbn [pred_repr] in H'; try discriminate H'.
  1-9: repeat match type of H' with context [pred_repr printable ?x] => destruct (pred_repr printable x); [|discriminate H'] end; injection H' as <-; discriminate E.
  all: try (exfalso; exact S).
  all: destruct (compared q) as [[[f1 g1] v1]|] eqn:C';
    [exfalso; destruct (compared_repr q _ _ _ C') as (R' & _); rewrite R' in H'; unfold compare_repr in H'; destruct (value_repr printable v1); [|discriminate]; injection H' as <-; cbn [pred_repr] in H;
     repeat match type of H with context [pred_repr printable ?x] => destruct (pred_repr printable x); [|discriminate H] end; injection H as <-; discriminate E|].
  all: destruct q; try discriminate C'; try (exfalso; exact S'); cbn [pred_repr shown_pred strict] in *.
  all: repeat match type of H with context [pred_repr printable ?x] => destruct (pred_repr printable x) eqn:?; [|discriminate H] end; injection H as <-.
  all: repeat match type of H' with context [pred_repr printable ?x] => destruct (pred_repr printable x) eqn:?; [|discriminate H'] end; injection H' as <-.
  all: try discriminate E.
  all: cbn [app] in E; injection E as E; rewrite <- !app_assoc in E.
  1-2: destruct S as [S1 S2]; destruct S' as [S1' S2'].
  1-2: edestruct IHp1 as [E1 E2]; [exact S1|exact S1'|reflexivity|eassumption|exact E|]; rewrite E1; cbn [app] in E2; injection E2 as E2; rewrite <- !app_assoc in E2;
       edestruct IHp2 as [E3 E4]; [exact S2|exact S2'|reflexivity|eassumption|exact E2|]; rewrite E3; cbn [app] in E4; injection E4 as E4; auto.
  edestruct IHp as [E1 E2]; [exact S|exact S'|reflexivity|eassumption|exact E|]. rewrite E1. cbn [app] in E2. injection E2 as E2. auto.
Qed.
Lemma weak_strict p : ~ weak p -> strict p = p.
Proof. induction p; cbn; intros W; try reflexivity; try (destruct o; tauto || reflexivity); try (rewrite IHp1, IHp2 by tauto; reflexivity). rewrite IHp by tauto. reflexivity. Qed.
(** ** data types *)
Lemma items_back d : forall d' t t' a b, Forall (fun kv => chars (fst kv) /\ shown_value (snd kv)) d -> Forall (fun kv => chars (fst kv) /\ shown_value (snd kv)) d' ->
  items_repr printable d = Ok t -> items_repr printable d' = Ok t' -> t ++ s "}" ++ a = t' ++ s "}" ++ b -> d = d' /\ a = b.
Proof.
  assert (Hd : forall k v r t0, items_repr printable ((k, v) :: r) = Ok t0 -> exists u q, value_repr printable v = Ok u /\ items_repr printable r = Ok q /\ t0 = str_repr printable k ++ s ": " ++ u ++ (match r with [] => [] | _ => s ", " end) ++ q).
  { intros k v r t0 H. cbn [items_repr] in H. destruct (value_repr printable v) as [u|]; [|discriminate]. cbn [rbind] in H. destruct (items_repr printable r) as [q|]; [|discriminate]. injection H as <-. eauto. }
  induction d as [|[k v] d IH]; intros d' t t' a b F F' H H' E.
  - injection H as <-. destruct d' as [|[k' v'] d']; [injection H' as <-; injection E as ->; auto|]. exfalso. destruct (Hd _ _ _ _ H') as (u & q & _ & _ & ->).
    inversion F' as [|? ? [C' _] _]; subst. destruct (literal_head _ _ (str_literal printable k' C')) as (c & r & E0 & Q). rewrite <- !app_assoc in E. cbn [fst] in *. rewrite E0 in E. cbn in E. destruct Q; congruence.
  - destruct (Hd _ _ _ _ H) as (u & q & V & R & ->). inversion F as [|? ? [C Sv] Fr]; subst. cbn [fst snd] in *. pose proof (str_literal printable k C) as L. destruct d' as [|[k' v'] d'].
    + exfalso. injection H' as <-. destruct (literal_head _ _ L) as (c & r & E0 & Q). rewrite <- !app_assoc in E. rewrite E0 in E. cbn in E. destruct Q; congruence.
    + destruct (Hd _ _ _ _ H') as (u' & q' & V' & R' & ->). inversion F' as [|? ? [C' Sv'] Fr']; subst. cbn [fst snd] in *. rewrite <- !app_assoc in E.
      destruct (literal_back _ _ _ _ _ _ L (str_literal printable k' C') E) as [-> E2]. cbn [app] in E2. injection E2 as E2.
      assert (ST : forall r q (x : pystr), items_repr printable r = Ok q -> stops ((match r with [] => [] | _ => s ", " end) ++ q ++ s "}" ++ x)).
      { intros r0 q0 x Hr. destruct r0; [injection Hr as <-|]; cbn; unfold is_digit; lia. }
      destruct (value_back v u v' u' _ _ (value_ok _ _ _ Sv V) (value_ok _ _ _ Sv' V') (ST d q a R) (ST d' q' b R') E2) as [-> E3].
      destruct d as [|kv d]; destruct d' as [|kv' d'].
      * injection R as <-. injection R' as <-. injection E3 as ->. auto.
      * exfalso. injection R as <-. discriminate E3.
      * exfalso. injection R' as <-. discriminate E3.
      * cbn [app] in E3. injection E3 as E3. destruct (IH _ _ _ _ _ Fr Fr' R R' E3) as [-> ->]. auto.
Qed.
Definition type_text (n : tname) : pystr := match type_string n with Ok x => x | Err _ => s "DataTypeEnum.UNKNOWN" end.
Lemma type_text_comma n : ~ In 44%N (type_text n).
Proof. destruct n; vm_compute; intuition discriminate. Qed.
Lemma type_text_inj n m : type_text n = type_text m -> n = m.
Proof. destruct n, m; vm_compute; intros H; try discriminate; reflexivity. Qed.
Lemma dtype_back t t' x : Forall (fun kv => chars (fst kv) /\ shown_value (snd kv)) (dt_opts t) -> Forall (fun kv => chars (fst kv) /\ shown_value (snd kv)) (dt_opts t') ->
  dtype_repr printable t = Ok x -> dtype_repr printable t' = Ok x -> dt_name t = dt_name t' /\ dt_opts t = dt_opts t'.
Proof.
  intros F F' H H'. unfold dtype_repr in *. destruct (items_repr printable (dt_opts t)) as [o|] eqn:I; [|discriminate]. destruct (items_repr printable (dt_opts t')) as [o'|] eqn:I'; [|discriminate].
  cbn [rbind] in H, H'. apply Ok_inj in H. apply Ok_inj in H'. subst x. apply app_inv_head in H'.
  fold (type_text (dt_name t)) in H'. fold (type_text (dt_name t')) in H'. destruct (name_back 44%N _ _ _ _ (type_text_comma _) (type_text_comma _) H') as [En E]. apply type_text_inj in En. split; [congruence|].
  apply (app_inv_head (s " options={")) in E. symmetry in E. apply (items_back _ _ _ _ (s ")") (s ")") F F' I I' E).
Qed.
(** ** spans and layers *)
Lemma span_back n n' x x' a b a' b' : ~ In 91%N n -> ~ In 91%N n' -> chars x -> chars x' -> span_text_repr printable n x a b = span_text_repr printable n' x' a' b' ->
  n = n' /\ a = a' /\ b = b' /\ span_str (mkSpan x a b) = span_str (mkSpan x' a' b').
Proof.
  intros N N' C C' E. unfold span_text_repr in E. apply app_inv_head in E. destruct (name_back 91%N n n' _ _ N N' E) as [-> E1].
  destruct ((fun A B => int_back a _ a' _ _ _ (str_int_text a) (str_int_text a') A B E1) ltac:(cbn; unfold is_digit; lia) ltac:(cbn; unfold is_digit; lia)) as [-> E2]. apply app_inv_head in E2.
  destruct ((fun A B => int_back b _ b' _ _ _ (str_int_text b) (str_int_text b') A B E2) ltac:(cbn; unfold is_digit; lia) ltac:(cbn; unfold is_digit; lia)) as [-> E3]. apply app_inv_head in E3.
  split; [reflexivity|]. split; [reflexivity|]. split; [reflexivity|].
  assert (CS : forall y i j, chars y -> chars (span_str (mkSpan y i j))).
  { intros y i j Cy. unfold chars in *. rewrite Forall_forall in *. intros c I. apply Cy. unfold span_str, py_slice, sub in I. rewrite <- (firstn_skipn (Z.to_nat (slice_start (zlen y) (Some i))) y). apply in_or_app. right. cbn [sp_text sp_start sp_stop] in I. rewrite <- (firstn_skipn (Z.to_nat (slice_stop (zlen y) (Some j) - slice_start (zlen y) (Some i))) (skipn _ y)). apply in_or_app. left. exact I. }
  refine (proj1 (literal_back _ _ _ _ [] [] (str_literal printable _ (CS _ _ _ C)) (str_literal printable _ (CS _ _ _ C')) _)). rewrite !app_nil_r. exact E3.
Qed.
End Pred.
Lemma int_plain k i : ~ is_digit k -> k <> 45%N -> ~ In k (str_int i).
Proof.
  intros D M I. pose proof (str_int_text i) as H. unfold int_text in H. destruct (i <? 0).
  - destruct H as (y & E & _ & F & _). rewrite E in I. destruct I as [I|I]; [congruence|]. rewrite Forall_forall in F. apply D, F, I.
  - destruct H as (_ & F & _). rewrite Forall_forall in F. apply D, F, I.
Qed.
Lemma layer_back h h' l l' : layer_repr h l = layer_repr h' l' -> l_nameof h l = l_nameof h' l' /\ l_numof h l = l_numof h' l'.
Proof.
  unfold layer_repr. intros E. apply app_inv_head in E. rewrite !app_assoc in E. apply app_inv_tail in E. apply (f_equal (@rev N)) in E. rewrite !rev_app_distr in E.
  destruct ((fun A B => name_back 61%N (rev (str_int (l_numof h l))) (rev (str_int (l_numof h' l'))) (s "N ," ++ rev (l_nameof h l)) (s "N ," ++ rev (l_nameof h' l')) A B E)) as [E1 E2].
  1-2: rewrite <- in_rev; apply int_plain; [unfold is_digit; lia|discriminate].
  apply app_inv_head in E2. split; [rewrite <- (rev_involutive (l_nameof h l)), E2, rev_involutive; reflexivity|].
  apply (f_equal (@rev N)) in E1. rewrite !rev_involutive in E1. pose proof (str_int_text (l_numof h l)) as T. rewrite E1 in T.
  refine (proj1 (int_back _ _ _ _ [] [] T (str_int_text (l_numof h' l')) I I eq_refl)).
Qed.
(** ** the representation is there *)
Lemma plain_shown printable v : plain v -> exists t, value_repr printable v = Ok t.
Proof.
  destruct v; cbn [plain value_repr]; intros P; try contradiction; try (eexists; reflexivity). destruct (Z.ltb_spec 4300 (zlen (Model_Printout.str_int (Z.abs i)))) as [L|L]; [exfalso|eexists; reflexivity].
  destruct (Z_lt_dec i 0) as [H|H].
  - pose proof (P (45%N :: str_int (- i))) as Q. replace (Z.abs i) with (- i) in L by lia. fold (str_int (- i)) in L. assert (T : int_text i (45%N :: str_int (- i))).
    { unfold int_text. destruct (Z.ltb_spec i 0); [|lia]. exists (str_int (- i)). split; [reflexivity|]. apply str_int_natural. lia. }
    specialize (Q T). unfold zlen in *. cbn [length] in Q. lia.
  - specialize (P _ (str_int_text i)). replace (Z.abs i) with i in L by lia. fold (str_int i) in L. lia.
Qed.
Lemma compare_text printable f g v t : shown_value v -> compare_repr printable f g v = Ok t -> exists u, value_text v u /\ t = s "({" ++ f ++ s "} " ++ g ++ s " " ++ u ++ s ")".
Proof.
  unfold compare_repr. intros S H. destruct (value_repr printable v) as [u|] eqn:V; [|discriminate]. cbn [rbind] in H. apply Ok_inj in H. exists u. split; [exact (value_ok _ _ _ S V)|congruence].
Qed.
Lemma pred_ok printable p : forall t, shown_pred p -> pred_repr printable p = Ok t -> pred_text p t.
Proof.
  induction p; cbn [pred_repr shown_pred]; intros t S H; try contradiction.
  1-3: destruct (compare_text _ _ _ _ _ (proj2 S) H) as (u & V & ->).
  - exact (pt_eq f v u V).
  - exact (pt_neq f v u V).
  - destruct o; [exact (pt_lt f v u V)|exact (pt_le f v u V)| |]; (refine (pt_gt _ f v u _ V); auto).
  - destruct (pred_repr printable p1) as [a|] eqn:A; [|discriminate]. cbn [rbind] in H. destruct (pred_repr printable p2) as [b|] eqn:B; [|discriminate]. cbn [rbind] in H. apply Ok_inj in H. subst t.
    constructor; [apply IHp1|apply IHp2]; tauto.
  - destruct (pred_repr printable p1) as [a|] eqn:A; [|discriminate]. cbn [rbind] in H. destruct (pred_repr printable p2) as [b|] eqn:B; [|discriminate]. cbn [rbind] in H. apply Ok_inj in H. subst t.
    constructor; [apply IHp1|apply IHp2]; tauto.
  - destruct (pred_repr printable p) as [a|] eqn:A; [|discriminate]. cbn [rbind] in H. apply Ok_inj in H. subst t. constructor. apply IHp; tauto.
Qed.
Lemma plain_pred_shown printable p : plain_pred p -> exists t, pred_repr printable p = Ok t.
Proof.
  induction p; cbn [plain_pred pred_repr]; intros P; try contradiction.
  1-3: unfold compare_repr; destruct (plain_shown printable v P) as [t ->]; eexists; reflexivity.
  1-2: destruct (IHp1 (proj1 P)) as [a ->]; destruct (IHp2 (proj2 P)) as [b ->]; eexists; reflexivity.
  destruct (IHp P) as [a ->]. eexists; reflexivity.
Qed.
Lemma pred_told printable p q t : shown_pred p -> shown_pred q -> pred_repr printable p = Ok t -> pred_repr printable q = Ok t -> strict p = strict q /\ (~ weak p -> ~ weak q -> p = q).
Proof.
  intros S S' H H'. destruct (pred_back printable p q t t [] [] S S' H H' eq_refl) as [E _]. split; [exact E|]. intros W W'. rewrite <- (weak_strict p W), <- (weak_strict q W'). exact E.
Qed.
Lemma value_told printable v w t : shown_value v -> shown_value w -> value_repr printable v = Ok t -> value_repr printable w = Ok t -> v = w.
Proof. intros S S' H H'. exact (proj1 (value_back _ _ _ _ [] [] (value_ok _ _ _ S H) (value_ok _ _ _ S' H') I I eq_refl)). Qed.
(** ** decimals are unique *)
Lemma decimal_snoc y c : decimal (y ++ [c]) = digit_value (decimal y) c.
Proof. unfold decimal. rewrite fold_left_app. reflexivity. Qed.
Lemma decimal_pos y : Forall is_digit y -> y <> [] -> hd 0%N y <> 48%N -> 0 < decimal y.
Proof.
  induction y as [|c y IH] using rev_ind; intros F N Hd; [congruence|]. apply Forall_app in F. destruct F as [F Fc]. inversion Fc; subst. unfold is_digit in *. rewrite decimal_snoc. unfold digit_value.
  destruct y as [|d y]; [cbn in *; lia|]. specialize (IH F ltac:(discriminate) Hd). lia.
Qed.
Lemma decimal_unique y : forall y', Forall is_digit y -> Forall is_digit y' -> (y <> [] -> hd 0%N y <> 48%N) -> (y' <> [] -> hd 0%N y' <> 48%N) -> decimal y = decimal y' -> y = y'.
Proof.
  induction y as [|c y IH] using rev_ind; intros y' F F' H H' E.
  - destruct y' as [|c' y']; [reflexivity|]. pose proof (decimal_pos (c' :: y') F' ltac:(discriminate) (H' ltac:(discriminate))). change (decimal []) with 0 in E. lia.
  - destruct y' as [|c' y' _] using rev_ind.
    + pose proof (decimal_pos (y ++ [c]) F ltac:(destruct y; discriminate) (H ltac:(destruct y; discriminate))). change (decimal []) with 0 in E. lia.
    + apply Forall_app in F, F'. destruct F as [F Fc], F' as [F' Fc']. inversion Fc; inversion Fc'; subst. rewrite !decimal_snoc in E. unfold digit_value, is_digit in *.
      assert (c = c' /\ decimal y = decimal y') as [-> E2] by lia. rewrite (IH y' F F'); [reflexivity| | |exact E2].
      * intros N. destruct y; [congruence|]. apply H. discriminate.
      * intros N. destruct y'; [congruence|]. apply H'. discriminate.
Qed.
Lemma natural_unique j y y' : decimal y = j /\ Forall is_digit y /\ y <> [] /\ (hd 0%N y = 48%N -> j = 0 /\ tl y = []) -> decimal y' = j /\ Forall is_digit y' /\ y' <> [] /\ (hd 0%N y' = 48%N -> j = 0 /\ tl y' = []) -> y = y'.
Proof.
  intros (D & F & N & Z) (D' & F' & N' & Z').
  assert (Zero : forall z, decimal z = j -> Forall is_digit z -> z <> [] -> (hd 0%N z = 48%N -> j = 0 /\ tl z = []) -> (j = 0 /\ z = [48%N]) \/ (j <> 0 /\ (z <> [] -> hd 0%N z <> 48%N))).
  { intros z Dz Fz Nz Zz. destruct (N.eq_dec (hd 0%N z) 48) as [e|n].
    - left. destruct (Zz e) as [-> T]. split; [reflexivity|]. destruct z; [congruence|]. cbn in *. congruence.
    - right. split; [|auto]. pose proof (decimal_pos z Fz Nz n). lia. }
  destruct (Zero y D F N Z) as [[J ->]|[J H]]; destruct (Zero y' D' F' N' Z') as [[J' ->]|[J' H']]; try lia; [reflexivity|]. apply decimal_unique; congruence || assumption.
Qed.
Lemma int_text_unique i t t' : int_text i t -> int_text i t' -> t = t'.
Proof.
  unfold int_text. destruct (i <? 0).
  - intros (y & -> & H) (y' & -> & H'). f_equal. exact (natural_unique _ _ _ H H').
  - apply natural_unique.
Qed.
