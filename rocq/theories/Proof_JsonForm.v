(** json.dumps writes the one form of a value (codec.py 179-181), after Spec_JsonForm.v. *)
From Verif Require Import PyBase PyBaseFacts Model_Msgpack Model_JsonText Spec_Printout Spec_JsonText Spec_JsonForm Proof_JsonText Proof_JsonText2 Proof_JsonText3.
From Verif Require Model_Printout Proof_Xml Spec_Xml Proof_PyRepr.
From Verif Require Import Proof_Msgpack.
Local Open Scope N_scope.

(** ** characters *)
Lemma hexd_small n : n < 16 -> ~ (65 <= hexd n <= 70).
Proof. intros H. unfold hexd. destruct (N.ltb_spec n 10); lia. Qed.
Lemma small_digit c v : hex_digit c v -> ~ (65 <= c <= 70) -> c = hexd v /\ v < 16.
Proof. unfold hex_digit, hexd. intros H N. destruct (N.ltb_spec v 10); lia. Qed.
Lemma uesc_small c : c < 65536 -> small_unit (uesc c) c.
Proof.
  intros H. split; [exact (uesc_unit c H)|]. unfold uesc, hex4. constructor; [lia|]. constructor; [lia|]. repeat (constructor; [apply hexd_small, N.mod_lt; discriminate|]). constructor.
Qed.
Lemma small_fun x y u : small_unit x u -> small_unit y u -> x = y.
Proof.
  intros ((a & b & c & d & a' & b' & c' & d' & -> & A & B & C & D & E) & F) ((p & q & r & t & p' & q' & r' & t' & -> & P & Q & R & T & G) & K).
  inversion F as [|? ? _ F1]; subst. inversion F1 as [|? ? _ F2]; subst. inversion F2 as [|? ? Fa F3]; subst. inversion F3 as [|? ? Fb F4]; subst. inversion F4 as [|? ? Fc F5]; subst. inversion F5 as [|? ? Fd _]; subst.
  inversion K as [|? ? _ K1]; subst. inversion K1 as [|? ? _ K2]; subst. inversion K2 as [|? ? Kp K3]; subst. inversion K3 as [|? ? Kq K4]; subst. inversion K4 as [|? ? Kr K5]; subst. inversion K5 as [|? ? Kt _]; subst.
  apply small_digit in A, B, C, D, P, Q, R, T; try assumption. destruct A as [-> A], B as [-> B], C as [-> C], D as [-> D], P as [-> P], Q as [-> Q], R as [-> R], T as [-> T].
  clear - A B C D P Q R T G. assert (a' = p' /\ b' = q' /\ c' = r' /\ d' = t') as (-> & -> & -> & ->) by lia. reflexivity.
Qed.
Lemma esc_form c : c < 0x110000 -> char_form c (esc_char c).
Proof.
  intros H. destruct (N.ltb_spec c 65536) as [L|L].
  - unfold esc_char. repeat match goal with |- context [if c =? ?k then _ else _] => destruct (N.eqb_spec c k) as [->|]; [apply cf_short; [cbn; tauto|discriminate]|] end.
    assert (Nn : ~ In c [8; 9; 10; 12; 13]) by (cbn; intuition congruence).
    destruct (N.leb_spec 32 c); destruct (N.leb_spec c 126); cbn [andb]; try (apply cf_plain; [lia|assumption..]); (destruct (N.ltb_spec c 65536); [|lia]); apply cf_unit; try assumption; try (apply uesc_small; assumption); lia.
  - destruct (esc_pair c (conj L H)) as (u & w & Q & H1 & H2 & H3 & H4 & H5). rewrite Q, <- H3 at 1. apply cf_pair; [apply uesc_small, H4|apply uesc_small, H5|exact H1|exact H2].
Qed.
Lemma short_char e c : In (e, c) escapes -> c <> 47 -> In (e, c) [(34, 34); (92, 92); (98, 8); (102, 12); (110, 10); (114, 13); (116, 9)].
Proof. unfold escapes. cbn. intros H N. repeat (destruct H as [H|H]; [injection H as <- <-; first [contradiction|tauto]|]). contradiction. Qed.
Lemma char_kind c t : char_form c t -> t = esc_char c.
Proof.
  intros H. destruct H as [e c I N|c B N1 N2|c x B N S|x y u w Sx Sy Hu Hw].
  - apply short_char in I; [|exact N]. cbn in I. repeat (destruct I as [I|I]; [injection I as <- <-; reflexivity|]). contradiction.
  - unfold esc_char. repeat match goal with |- context [if c =? ?k then _ else _] => destruct (N.eqb_spec c k) as [E|]; [exfalso; clear - E B N1 N2; lia|] end.
    destruct (N.leb_spec 32 c); [|lia]. destruct (N.leb_spec c 126); [reflexivity|lia].
  - assert (E : esc_char c = uesc c).
    { unfold esc_char. repeat match goal with |- context [if c =? ?k then _ else _] => destruct (N.eqb_spec c k) as [E|]; [exfalso; subst c; first [apply N; cbn; tauto|lia]|] end.
      destruct (N.leb_spec 32 c); destruct (N.leb_spec c 126); cbn [andb]; try lia; (destruct (N.ltb_spec c 65536); [reflexivity|lia]). }
    rewrite E. apply (small_fun _ _ c S). apply uesc_small. lia.
  - remember ((u - 55296) * 1024 + (w - 56320) + 65536) as c eqn:Ec. unfold high, low in Hu, Hw. assert (B : 65536 <= c < 0x110000) by lia.
    destruct (esc_pair c B) as (u' & w' & Q & H1 & H2 & H3 & H4 & H5). unfold high, low in H1, H2. assert (u' = u /\ w' = w) as [-> ->] by (clear - Ec Hu Hw H1 H2 H3; lia).
    rewrite Q. f_equal; [apply (small_fun _ _ u Sx)|apply (small_fun _ _ w Sy)]; apply uesc_small; assumption.
Qed.
Lemma quote_form x t : points x -> (string_form x t <-> t = quote x).
Proof.
  intros P. split.
  - intros (cs & F & ->). unfold quote. change (s """" ++ List.concat cs ++ s """") with (34 :: List.concat cs ++ [34]). f_equal. f_equal. clear P. induction F as [|c t x cs H F IH]; [reflexivity|].
    cbn [List.concat flat_map]. rewrite IH, (char_kind _ _ H). reflexivity.
  - intros ->. exists (map esc_char x). split; [|unfold quote; rewrite flat_map_concat_map; reflexivity]. induction P; constructor; auto using esc_form.
Qed.

(** ** floats *)
Lemma is_nan_iff b : b < 2 ^ 64 -> (is_nan b = true <-> not_number b).
Proof.
  intros H. unfold is_nan, not_number. rewrite Bool.andb_true_iff, Bool.negb_true_iff, N.eqb_eq, N.eqb_neq. split.
  - intros [E Z0]. exists (b mod 2 ^ 52). split; [split; [apply N.neq_0_lt_0; exact Z0|apply N.mod_lt; discriminate]|]. assert (D := N.div_mod' b (2 ^ 52)). assert (D2 := N.div_mod' (b / 2 ^ 52) 2048). rewrite E in D2.
    assert (L : b / 2 ^ 52 < 4096) by (apply N.div_lt_upper_bound; [discriminate|]; exact H). assert (L2 : b / 2 ^ 52 / 2048 < 2) by (apply N.div_lt_upper_bound; [discriminate|]; exact L).
    assert (C : b / 2 ^ 52 / 2048 = 0 \/ b / 2 ^ 52 / 2048 = 1) by (revert L2; generalize (b / 2 ^ 52 / 2048); intros q L2; lia).
    destruct C as [C|C]; rewrite C in D2; [left|right]; rewrite D2 in D; revert D; generalize (b mod 2 ^ 52); intros m D; rewrite D; [change (2048 * 0 + 2047) with 2047|change (2048 * 1 + 2047) with 4095; change (2 ^ 63) with (2048 * 2 ^ 52)]; lia.
  - intros (m & [M1 M2] & E).
    assert (G : exists q, q mod 2048 = 2047 /\ b = 2 ^ 52 * q + m) by (destruct E as [->| ->]; [exists 2047|exists 4095]; (split; [reflexivity|]); change (2 ^ 63) with (2048 * 2 ^ 52); lia).
    destruct G as (q & Q & ->). rewrite (N.mul_comm (2 ^ 52) q), N.div_add_l by discriminate. rewrite (N.div_small m) by exact M2. rewrite N.add_0_r. split; [exact Q|].
    rewrite N.add_comm, N.mod_add by discriminate. rewrite N.mod_small by exact M2. lia.
Qed.
Lemma not_number_parts b : not_number b -> b < 2 ^ 64 /\ ~ finite b /\ b <> pos_inf /\ b <> neg_inf.
Proof.
  intros H. assert (L : b < 2 ^ 64).
  { destruct H as (m & [M1 M2] & E). change (2 ^ 64) with (4096 * 2 ^ 52). change (2 ^ 63) with (2048 * 2 ^ 52) in E. destruct E as [->| ->]; lia. }
  split; [exact L|]. assert (I := proj2 (is_nan_iff b L) H). unfold is_nan in I. apply andb_prop in I. destruct I as [I1 I2]. apply N.eqb_eq in I1. split; [intros [_ F]; contradiction|].
  split; intros ->; vm_compute in I2; discriminate.
Qed.
Lemma finite_parts b : finite b -> is_nan b = false /\ b <> pos_inf /\ b <> neg_inf.
Proof.
  intros [L F]. split; [|split; intros ->; apply F; reflexivity]. unfold is_nan. destruct (N.eqb_spec (b / 2 ^ 52 mod 2048) 2047); [contradiction|reflexivity].
Qed.
Lemma float_form frepr b t : b < 2 ^ 64 -> (form frepr (MFloat b) t <-> t = float_json frepr b).
Proof.
  intros L. unfold float_json. split.
  - intros H. inversion H as [| | | |? F|? F| | | | |]; subst.
    + destruct (finite_parts b F) as (-> & N1 & N2). destruct (N.eqb_spec b pos_inf); [contradiction|]. destruct (N.eqb_spec b neg_inf); [contradiction|reflexivity].
    + rewrite (proj2 (is_nan_iff b L) F). reflexivity.
    + reflexivity.
    + reflexivity.
  - intros ->. destruct (is_nan b) eqn:E1; [apply fm_nan, is_nan_iff; assumption|]. destruct (N.eqb_spec b pos_inf) as [->|E2]; [apply fm_inf|]. destruct (N.eqb_spec b neg_inf) as [->|E3]; [apply fm_ninf|].
    apply fm_float. destruct (float_cases b L) as [F|[F|[F|F]]]; [exact F|congruence..].
Qed.

(** ** values *)
Lemma join_listed xs : join_list xs = listed xs.
Proof.
  destruct xs as [|x xs]; [reflexivity|]. cbn [listed]. revert x. induction xs as [|y xs IH]; intros x; [cbn; rewrite app_nil_r; reflexivity|]. rewrite join_cons, IH. cbn [map List.concat]. rewrite <- !app_assoc. reflexivity.
Qed.
Theorem dumps_form frepr o : of_points o -> forall t, dumps frepr o = Ok t <-> form frepr o t.
Proof.
  induction o as [|b|i|b|x|x|l IH|d IH] using mobj_rect'; intros P t; cbn [dumps].
  - split; [intros H; apply Ok_inj in H; subst t; constructor|intros H; inversion H; reflexivity].
  - split; [intros H; apply Ok_inj in H; subst t; destruct b; constructor|intros H; inversion H; reflexivity].
  - split.
    + intros H. apply Ok_inj in H. subst t. constructor. exact (Proof_Xml.str_int_text i).
    + intros H. inversion H; subst. f_equal. apply (Proof_PyRepr.int_text_unique i); [exact (Proof_Xml.str_int_text i)|assumption].
  - inversion P; subst. rewrite (float_form frepr b t) by assumption. split; [intros H; apply Ok_inj in H; congruence|intros ->; reflexivity].
  - inversion P; subst. split.
    + intros H. apply Ok_inj in H. constructor. apply quote_form; [assumption|congruence].
    + intros H. inversion H; subst. f_equal. symmetry. apply quote_form; assumption.
  - split; [discriminate|intros H; inversion H].
  - inversion P as [| | | | | |? Pl|]; subst. clear P.
    assert (G : forall xs, each (dumps frepr) l = Ok xs <-> forms frepr l xs).
    { intros xs. rewrite each_Forall2. revert xs Pl. induction IH as [|o l Ho Hl IHl]; intros xs Pl; [split; intros H; inversion H; constructor|]. inversion Pl; subst. specialize (Ho H1). split.
      - intros H. inversion H; subst. constructor; [apply Ho; assumption|apply IHl; assumption].
      - intros H. inversion H; subst. constructor; [apply Ho; assumption|apply IHl; assumption]. }
    split.
    + intros H. destruct (each (dumps frepr) l) as [xs|] eqn:E; [|discriminate]. cbn [rbind] in H. apply Ok_inj in H. subst t. rewrite join_listed. apply (fm_arr frepr l xs). apply G. reflexivity.
    + intros H. inversion H; subst. match goal with K : forms _ _ _ |- _ => apply G in K; rewrite K end. cbn [rbind]. rewrite join_listed. reflexivity.
  - inversion P as [| | | | | | |? Pk Pv]; subst. clear P.
    match goal with |- context [each ?g d] => assert (G : forall xs, each g d = Ok xs <-> entry_forms frepr d xs) end.
    { intros xs. rewrite each_Forall2. revert xs Pk Pv. induction d as [|[k o] d IHd]; intros xs Pk Pv; [split; intros H; inversion H; constructor|]. inversion IH as [|? ? Ho Hl]; subst. cbn [map fst snd] in *. inversion Pk; inversion Pv; subst.
      split.
      - intros H. inversion H as [|? y ? ys D F]; subst. cbn [fst snd] in D. destruct (dumps frepr o) as [v|] eqn:Ev; [|discriminate]. cbn [rbind] in D. apply Ok_inj in D. subst y.
        constructor; [apply quote_form; [assumption|reflexivity]|apply Ho; [assumption|reflexivity]|apply IHd; assumption].
      - intros H. inversion H as [|? ? ? t0 x0 xs0 Q F R]; subst. constructor; [|apply IHd; assumption]. cbn [fst snd]. apply Ho in F; [|assumption]. rewrite F. cbn [rbind]. apply quote_form in Q; [|assumption]. subst t0. reflexivity. }
    split.
    + intros H. match type of H with context [each ?g d] => destruct (each g d) as [xs|] eqn:E; [|discriminate] end. cbn [rbind] in H. apply Ok_inj in H. subst t. rewrite join_listed. apply (fm_map frepr d xs). apply G. reflexivity.
    + intros H. inversion H; subst. match goal with K : entry_forms _ _ _ |- _ => apply G in K; rewrite K end. cbn [rbind]. rewrite join_listed. reflexivity.
Qed.
