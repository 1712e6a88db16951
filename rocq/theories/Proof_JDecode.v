(** Proofs about Model_JCodec.v on bytes of any origin. *)
From Verif Require Import PyBase PyBaseFacts Model_Text Model_Heap Model_Layer Model_Types Model_Msgpack Model_Codec Model_JUnits Model_JLayer Model_JStream Model_JCodec
  Spec_Msgpack Spec_JUnits Spec_JCodec Spec_JEncode Spec_JDecode Proof_Msgpack Proof_Decode Proof_JUnits Proof_JCodec Proof_JEncode2.
Local Open Scope Z_scope.

(** ** readers *)
Definition good {A} (Q : A -> Prop) (F : list N -> res (A * list N)) : Prop := forall bs a r, bytes bs -> F bs = Ok (a, r) -> Q a /\ bytes r.
Lemma good_bind {A B} (Q : A -> Prop) (P : B -> Prop) F (K : A -> list N -> res (B * list N)) :
  good Q F -> (forall a, Q a -> good P (K a)) -> good P (fun bs => let* (a, r) := F bs in K a r).
Proof.
  intros HF HK bs b r Hb H. destruct (F bs) as [[a r1]|] eqn:E; [|discriminate]. cbn [rbind] in H. destruct (HF _ _ _ Hb E) as [Qa Hr].
  exact (HK a Qa _ _ _ Hr H).
Qed.
Lemma good_ret {A} (Q : A -> Prop) a : Q a -> good Q (fun bs => Ok (a, bs)).
Proof. intros H bs b r Hb E. assert (b = a /\ r = bs) as [-> ->] by (split; congruence). split; assumption. Qed.
Lemma good_err {A} (Q : A -> Prop) e : good Q (fun _ => Err e).
Proof. intros bs b r Hb E. discriminate. Qed.
Lemma good_weak {A} (Q P : A -> Prop) F : (forall a, Q a -> P a) -> good Q F -> good P F.
Proof. intros W HF bs a r Hb H. destruct (HF _ _ _ Hb H). split; auto. Qed.
Lemma good_pure {A B} (P : B -> Prop) (x : res A) (K : A -> list N -> res (B * list N)) :
  (forall a, x = Ok a -> good P (K a)) -> good P (fun bs => let* a := x in K a bs).
Proof. intros HK bs b r Hb H. destruct x as [a|]; [|discriminate]. cbn [rbind] in H. exact (HK a eq_refl _ _ _ Hb H). Qed.
Lemma good_if {A} (P : A -> Prop) (c : bool) F G : (c = true -> good P F) -> (c = false -> good P G) -> good P (fun bs => if c then F bs else G bs).
Proof. destruct c; intros H1 H2; [apply H1|apply H2]; reflexivity. Qed.

Lemma payload_good n : good bytes (mu_payload n).
Proof.
  intros bs a r Hb H. unfold mu_payload in H. destruct (take n bs) as [[x y]|] eqn:E; [|discriminate]. assert (x = a /\ y = r) as [-> ->] by (split; congruence).
  apply take_ok in E. destruct E as [-> _]. apply bytes_app in Hb. assumption.
Qed.
Lemma muint_good k : 0 <= k -> good (fun v => 0 <= v < 256 ^ k) (mu_uint k).
Proof.
  intros K bs a r Hb H. unfold mu_uint in H. destruct (read_uint k bs) as [[x y]|] eqn:E; [|discriminate]. assert (x = a /\ y = r) as [-> ->] by (split; congruence).
  apply read_uint_ok in E; [|assumption|assumption]. destruct E as (p & -> & _ & R). apply bytes_app in Hb. tauto.
Qed.
Ltac head :=
  match goal with |- good ?P _ =>
    let bs := fresh "bs" in let a := fresh "a" in let r := fresh "r" in let Hb := fresh "Hb" in let H := fresh "H" in let b := fresh "b" in
    let H0 := fresh in let H1 := fresh in let R := fresh "R" in let t := fresh "t" in
    intros bs a r Hb H; destruct bs as [|b bs]; [discriminate|]; inversion Hb as [|? ? H0 H1]; subst; clear Hb;
    pose proof (classify_range b H0) as R; clear H0; cbv beta iota in H; set (t := classify b) in *; clearbody t; clear b; cbv beta iota in H;
    match type of H with ?X = _ => let f := eval pattern bs in X in
      match f with ?F bs => refine ((_ : good P F) bs a r H1 H); clear H H1 a r bs; revert t R end end
  end.
Lemma signed_range k v : (k = 1 \/ k = 2 \/ k = 4 \/ k = 8) -> 0 <= v < 256 ^ k -> - 2 ^ 63 <= to_signed k v < 2 ^ 63.
Proof.
  intros K R. unfold to_signed. change (2 ^ 63) with 9223372036854775808.
  destruct K as [-> | [-> | [-> | ->]]]; match goal with |- context [?a <=? v] => destruct (Z.leb_spec a v) | |- context [v <? ?a] => destruct (Z.ltb_spec v a) end;
    cbn in *; lia.
Qed.
Lemma pow_range k v : (k = 1 \/ k = 2 \/ k = 4 \/ k = 8) -> 0 <= v < 256 ^ k -> 0 <= v < 2 ^ 64.
Proof. intros K R. change (2 ^ 64) with 18446744073709551616. destruct K as [-> | [-> | [-> | ->]]]; cbn in R; lia. Qed.
Lemma number_good t : tag_range t -> good (fun v => - 2 ^ 63 <= v < 2 ^ 64)
  (fun r => match t with
            | TgInt z => Ok (z, r)
            | TgUint k => mu_uint k r
            | TgSint k => let* (v, r') := mu_uint k r in Ok (to_signed k v, r')
            | _ => Err TypeError
            end).
Proof.
  intros R. destruct t; try apply good_err; cbn in R.
  - apply good_ret. lia.
  - eapply good_weak; [|apply muint_good; lia]. intros a Ha. cbv beta in Ha. pose proof (pow_range _ _ R Ha). lia.
  - eapply good_bind; [apply muint_good; lia|]. intros a Ha. cbv beta in Ha. apply good_ret. pose proof (signed_range _ _ R Ha). lia.
Qed.
Lemma muInt_good : good int_range mu_int.
Proof.
  unfold mu_int. head. intros t R. eapply good_bind; [apply number_good; assumption|]. intros v Hv. cbv beta in Hv. apply good_if; intros E; [apply good_err|].
  apply good_ret. apply Bool.orb_false_iff in E. destruct E as [E1 E2]. apply Z.ltb_ge in E1, E2. unfold int_range. lia.
Qed.
Lemma muLong_good : good long_range mu_long.
Proof.
  unfold mu_long. head. intros t R. eapply good_bind; [apply number_good; assumption|]. intros v Hv. cbv beta in Hv. apply good_if; intros E; [apply good_err|].
  apply good_ret. apply Z.leb_gt in E. unfold long_range. change (2 ^ 63) with 9223372036854775808 in *. change (2 ^ 64) with 18446744073709551616 in *. lia.
Qed.
Lemma muDouble_good : good (fun b => (b < 18446744073709551616)%N) mu_double.
Proof.
  unfold mu_double. head. intros t R. destruct t; try apply good_err.
  - eapply good_bind; [apply muint_good; lia|]. intros v Hv. cbv beta in Hv. apply good_ret. change (256 ^ 8) with 18446744073709551616 in Hv. lia.
  - eapply good_bind; [apply muint_good; lia|]. intros v Hv. cbv beta in Hv. apply good_ret. change (256 ^ 4) with 4294967296 in Hv. pose proof (single_range v Hv). lia.
Qed.
Lemma muBool_good : good (fun _ => True) mu_bool.
Proof. unfold mu_bool. head. intros t R. destruct t; try apply good_err. apply good_ret. exact I. Qed.
Lemma muArray_good : good (fun n => 0 <= n <= 2147483647) mu_array.
Proof.
  unfold mu_array. head. intros t R. destruct t; try apply good_err; cbn in R.
  - apply good_ret. lia.
  - eapply good_bind; [apply muint_good; lia|]. intros v Hv. cbv beta in Hv. apply good_if; intros E; [apply good_err|]. apply good_ret. apply Z.ltb_ge in E. lia.
Qed.
Lemma muMap_good : good (fun n => 0 <= n <= 2147483647) mu_map.
Proof.
  unfold mu_map. head. intros t R. destruct t; try apply good_err; cbn in R.
  - apply good_ret. lia.
  - eapply good_bind; [apply muint_good; lia|]. intros v Hv. cbv beta in Hv. apply good_if; intros E; [apply good_err|]. apply good_ret. apply Z.ltb_ge in E. lia.
Qed.
Lemma muHeader_good : good (fun n => 0 <= n <= 2147483647) mu_header.
Proof.
  unfold mu_header. head. intros t R. destruct t; try apply good_err; cbn in R.
  - apply good_ret. lia.
  - eapply good_bind; [apply muint_good; lia|]. intros v Hv. cbv beta in Hv. cbv beta in Hv. apply good_if; intros E; [apply good_err|]. apply good_ret. apply Z.ltb_ge in E. lia.
  - eapply good_bind; [apply muint_good; lia|]. intros v Hv. cbv beta in Hv. cbv beta in Hv. apply good_if; intros E; [apply good_err|]. apply good_ret. apply Z.ltb_ge in E. lia.
Qed.
Lemma utf8_scalar bs x : utf8_decode bs = Ok x -> Forall scalar x.
Proof.
  intros H. apply (utf8_strict _ bs x (le_n _)) in H. revert bs H. induction x as [|c x IH]; intros bs H; constructor.
  - cbn [utf8_encode] in H. destruct (utf8_char c) as [a|] eqn:E; [|discriminate]. unfold utf8_char in E. unfold scalar.
    destruct (N.ltb_spec c 0x80); [lia|]. destruct (N.ltb_spec c 0x800); [lia|]. destruct (is_surrogate c) eqn:Es; [discriminate|].
    assert (~ (0xD800 <= c <= 0xDFFF)%N).
    { unfold is_surrogate in Es. intros [A B]. apply N.leb_le in A, B. rewrite A, B in Es. discriminate. }
    destruct (N.ltb_spec c 0x10000); [lia|]. destruct (N.ltb_spec c 0x110000); [lia|discriminate].
  - cbn [utf8_encode] in H. destruct (utf8_char c) as [a|]; [|discriminate]. cbn [rbind] in H. destruct (utf8_encode x) as [b|] eqn:E; [|discriminate]. exact (IH b eq_refl).
Qed.
Lemma muString_good : good (Forall scalar) mu_string.
Proof.
  unfold mu_string. eapply good_bind with (Q := fun _ => True).
  - unfold mu_bytes. eapply good_bind; [apply muHeader_good|]. intros n _. eapply good_weak; [|apply payload_good]. auto.
  - intros b _. apply good_pure. intros x E. apply good_ret. eapply utf8_scalar; exact E.
Qed.
Definition msg_value (o : mobj) : Prop := python_value o /\ forall i, o = MInt i -> - 2 ^ 63 <= i < 2 ^ 64.
Lemma muValue_good : good msg_value mu_value.
Proof.
  intros bs o r Hb H. unfold mu_value in H. destruct (unpack1 bs) as [[o' r']|e] eqn:E; [|destruct e; discriminate]. assert (o' = o /\ r' = r) as [-> ->] by (split; congruence).
  apply unpack_minimal in E; [|assumption]. destruct E as (V & R & p & Ep & _). split; [|assumption]. split; [assumption|]. intros i ->. cbn [least] in Ep.
  change (2 ^ 63) with 9223372036854775808. change (2 ^ 64) with 18446744073709551616. apply pack_int_fits. exists p. exact Ep.
Qed.

(** ** rounding *)
Lemma half_even_nearest m k : 0 <= k -> nearest_even m k (half_even m k).
Proof.
  intros K p Hp. unfold half_even in *. assert (P0 : 0 < 2 ^ k) by (apply Z.pow_pos_nonneg; lia). pose proof (Z.div_mod m (2 ^ k) ltac:(lia)) as D.
  pose proof (Z.mod_pos_bound m (2 ^ k) P0) as B. set (P := 2 ^ k) in *. set (q := m / P) in *. set (r := m mod P) in *. clearbody P q r. subst m.
  assert (G : forall x, q + 1 <= x -> P * q + P <= x * P) by (intros; nia). assert (G' : forall x, x <= q -> x * P <= P * q) by (intros; nia). assert (G2 : forall x, x <= q - 1 -> x * P <= P * q - P) by (intros; nia).
  assert (G3 : forall x, q + 2 <= x -> P * q + 2 * P <= x * P) by (intros; nia).
  assert (E0 : q * P = P * q) by ring. assert (E1 : (q + 1) * P = P * q + P) by ring.
  destruct (Z.compare_spec (2 * r) P).
  - destruct (Z.even q) eqn:Ev.
    + destruct (Z_le_gt_dec (q + 1) p) as [L|L]; [specialize (G p L)|specialize (G2 p ltac:(lia))].
      * destruct (Z.eq_dec p (q + 1)) as [->|]; [right; split; [lia|assumption]|left; specialize (G3 p ltac:(lia)); lia].
      * left. lia.
    + assert (Ev' : Z.even (q + 1) = true) by (rewrite Z.even_add, Ev; reflexivity).
      destruct (Z_le_gt_dec (q + 1) p) as [L|L]; [left; specialize (G3 p ltac:(lia)); lia|].
      destruct (Z.eq_dec p q) as [->|]; [right; split; [lia|assumption]|left; specialize (G2 p ltac:(lia)); lia].
  - left. destruct (Z_le_gt_dec (q + 1) p) as [L|L]; [specialize (G p L)|specialize (G2 p ltac:(lia))]; lia.
  - left. destruct (Z_le_gt_dec (q + 2) p) as [L|L]; [specialize (G3 p L)|specialize (G' p ltac:(lia))]; lia.
Qed.
Lemma half_even_bound m k a b : 0 <= k -> a * 2 ^ k <= m <= b * 2 ^ k -> a <= half_even m k <= b.
Proof.
  intros K H. assert (P0 : 0 < 2 ^ k) by (apply Z.pow_pos_nonneg; lia). unfold half_even.
  assert (a <= m / 2 ^ k) by (apply Z.div_le_lower_bound; lia). assert (L : m / 2 ^ k <= b) by (apply Z.div_le_upper_bound; lia).
  pose proof (Z.div_mod m (2 ^ k) ltac:(lia)) as D. pose proof (Z.mod_pos_bound m (2 ^ k) P0) as B.
  destruct (Z.eq_dec (m / 2 ^ k) b) as [E|].
  - assert (R : m mod 2 ^ k = 0) by nia. rewrite R. change (2 * 0) with 0. destruct (Z.compare_spec 0 (2 ^ k)); lia.
  - destruct (_ ?= _); [destruct (Z.even _)| |]; lia.
Qed.
Lemma single_parts g e m : 0 <= e < 256 -> 0 <= m < 2 ^ 23 ->
  let v := g * 2 ^ 31 + e * 2 ^ 23 + m in v / 2 ^ 31 = g /\ (v / 2 ^ 23) mod 256 = e /\ v mod 2 ^ 23 = m.
Proof.
  change (2 ^ 31) with 2147483648. change (2 ^ 23) with 8388608. intros He Hm v. subst v. repeat split.
  - symmetry. apply (Z.div_unique _ _ _ (e * 8388608 + m)); lia.
  - assert (D : (g * 2147483648 + e * 8388608 + m) / 8388608 = g * 256 + e) by (symmetry; apply (Z.div_unique _ _ _ m); lia).
    rewrite D. symmetry. apply (Z.mod_unique _ _ g); lia.
  - symmetry. apply (Z.mod_unique _ _ (g * 256 + e)); lia.
Qed.
Lemma single_made g e m : g = 0 \/ g = 1 -> 0 <= e < 256 -> 0 <= m < 2 ^ 23 -> (e = 255 -> m = 0) -> is_single (Z.to_N (single_double (g * 2 ^ 31 + e * 2 ^ 23 + m))).
Proof.
  intros Hg He Hm Hn. destruct (single_parts g e m He Hm) as (P1 & P2 & P3). exists (g * 2 ^ 31 + e * 2 ^ 23 + m). split; [lia|]. split; [reflexivity|].
  change 8388608 with (2 ^ 23). rewrite P2, P3. assumption.
Qed.
Lemma cut29 m n : 0 <= n -> Z.testbit (m / 2 ^ 29 * 2 ^ 29) n = ((29 <=? n) && Z.testbit m n)%bool.
Proof.
  intros Hn. rewrite <- Z.shiftr_div_pow2, <- Z.shiftl_mul_pow2 by lia. destruct (Z.leb_spec 29 n).
  - rewrite Z.shiftl_spec, Z.shiftr_spec by lia. rewrite Z.sub_add. reflexivity.
  - rewrite Z.shiftl_spec_low by lia. reflexivity.
Qed.
Lemma quiet_again m : let w := Z.lor (m / 2 ^ 29 * 2 ^ 29) (2 ^ 51) in Z.lor (w / 2 ^ 29 * 2 ^ 29) (2 ^ 51) = w.
Proof.
  intros w. apply Z.bits_inj'. intros n Hn. unfold w. rewrite !Z.lor_spec, !cut29, !Z.lor_spec, !cut29 by assumption.
  destruct (Z.leb_spec 29 n); cbn [andb orb].
  - destruct (Z.testbit m n), (Z.testbit (2 ^ 51) n); reflexivity.
  - reflexivity.
Qed.
Lemma quiet_range m : 0 <= m < 2 ^ 52 -> let w := Z.lor (m / 2 ^ 29 * 2 ^ 29) (2 ^ 51) in 0 < w < 2 ^ 52.
Proof.
  intros H w. assert (M : 0 <= m / 2 ^ 29 * 2 ^ 29 <= m).
  { assert (0 <= m / 2 ^ 29) by (apply Z.div_pos; lia). pose proof (Z.mul_div_le m (2 ^ 29) ltac:(lia)). lia. }
  assert (W0 : 0 <= w) by (apply Z.lor_nonneg; lia).
  assert (W1 : w <> 0).
  { intros E. assert (B : Z.testbit w 51 = true) by (unfold w; rewrite Z.lor_spec; replace (Z.testbit (2 ^ 51) 51) with true by reflexivity; apply Bool.orb_true_r).
    rewrite E in B. discriminate. }
  assert (W2 : w / 2 ^ 52 = 0).
  { rewrite <- Z.shiftr_div_pow2 by lia. unfold w. rewrite Z.shiftr_lor. rewrite !Z.shiftr_div_pow2 by lia. rewrite (Z.div_small _ (2 ^ 52)) by lia. reflexivity. }
  split; [lia|]. apply Z.div_small_iff in W2; lia.
Qed.
Lemma to_float_kind b : (b < 18446744073709551616)%N -> is_single (to_float b) \/
  exists sg m, (sg = 0 \/ sg = 1) /\ 0 <= m < 2 ^ 52 /\ to_float b = Z.to_N (sg * 2 ^ 63 + 2047 * 2 ^ 52 + Z.lor (m / 2 ^ 29 * 2 ^ 29) (2 ^ 51)).
Proof.
  intros Hb. unfold to_float. set (v := Z.of_N b). assert (Hv : 0 <= v < 2 ^ 64) by (change (2 ^ 64) with 18446744073709551616; lia). clearbody v. clear Hb b.
  assert (Hs : v / 2 ^ 63 = 0 \/ v / 2 ^ 63 = 1).
  { assert (0 <= v / 2 ^ 63) by (apply Z.div_pos; lia). assert (v / 2 ^ 63 < 2) by (apply Z.div_lt_upper_bound; lia). lia. }
  pose proof (Z.mod_pos_bound (v / 2 ^ 52) 2048 ltac:(lia)) as He. pose proof (Z.mod_pos_bound v (2 ^ 52) ltac:(lia)) as Hm.
  assert (Ev : v = v / 2 ^ 63 * 2 ^ 63 + (v / 2 ^ 52) mod 2048 * 2 ^ 52 + v mod 2 ^ 52).
  { pose proof (Z.div_mod v (2 ^ 52) ltac:(lia)). pose proof (Z.div_mod (v / 2 ^ 52) 2048 ltac:(lia)) as D. rewrite Z.div_div in D by lia.
    change (2 ^ 52 * 2048) with (2 ^ 63) in D. change (2 ^ 63) with (2048 * 2 ^ 52) at 2. lia. }
  set (sg := v / 2 ^ 63) in *. set (e := (v / 2 ^ 52) mod 2048) in *. set (m := v mod 2 ^ 52) in *. clearbody sg e m. cbv zeta.
  destruct (Z.eqb_spec e 2047) as [->|X].
  { destruct (Z.eqb_spec m 0) as [->|Y].
    - left. pose proof (single_made sg 255 0 Hs ltac:(lia) ltac:(lia) ltac:(reflexivity)) as G. destruct (single_parts sg 255 0 ltac:(lia) ltac:(lia)) as (P1 & P2 & P3).
      unfold single_double in G. cbv zeta in P1, P2, P3, G. rewrite P1, P2, P3 in G. cbn [Z.eqb] in G. replace v with (sg * 2 ^ 63 + 2047 * 2 ^ 52 + 0) by lia. exact G.
    - right. exists sg, m. split; [assumption|]. split; [lia|reflexivity]. }
  left. assert (Zero : is_single (Z.to_N (sg * 2 ^ 63))).
  { pose proof (single_made sg 0 0 Hs ltac:(lia) ltac:(lia) ltac:(lia)) as G. destruct (single_parts sg 0 0 ltac:(lia) ltac:(lia)) as (P1 & P2 & P3).
    unfold single_double in G. cbv zeta in P1, P2, P3, G. rewrite P1, P2, P3 in G. exact G. }
  destruct (Z.ltb_spec e 873); [exact Zero|].
  destruct (Z_lt_le_dec e 897) as [Sub|Nor].
  - (* below the normal floats *)
    replace (Z.max (e - 1046) (-149)) with (-149) by lia. replace (-149 - (e - 1075)) with (926 - e) by lia.
    assert (Q : 0 <= half_even (2 ^ 52 + m) (926 - e) <= 2 ^ 23).
    { apply half_even_bound; [lia|]. rewrite Z.mul_0_l. rewrite <- Z.pow_add_r by lia. split; [lia|]. assert (2 ^ 53 <= 2 ^ (23 + (926 - e))) by (apply Z.pow_le_mono_r; lia). lia. }
    set (q := half_even (2 ^ 52 + m) (926 - e)) in *. clearbody q.
    destruct (Z.eqb_spec q 0) as [->|Q0]; [exact Zero|]. change (2 ^ Z.max (-149) 0) with 1. destruct (Z.leb_spec (2 ^ 128) (q * 1)); [lia|].
    destruct (Z.eq_dec q (2 ^ 23)) as [->|Q1].
    + pose proof (single_made sg 1 0 Hs ltac:(lia) ltac:(lia) ltac:(lia)) as G. destruct (single_parts sg 1 0 ltac:(lia) ltac:(lia)) as (P1 & P2 & P3).
      unfold single_double in G. cbv zeta in P1, P2, P3, G. rewrite P1, P2, P3 in G. cbn [Z.eqb] in G. rewrite Z.log2_pow2 by lia. 
      replace (sg * 2 ^ 63 + (23 + -149 + 1023) * 2 ^ 52 + (2 ^ 23 - 2 ^ 23) * 2 ^ (52 - 23)) with (sg * 2 ^ 63 + (1 + 896) * 2 ^ 52 + 0 * 2 ^ 29) by lia. exact G.
    + pose proof (single_made sg 0 q Hs ltac:(lia) ltac:(lia) ltac:(lia)) as G. destruct (single_parts sg 0 q ltac:(lia) ltac:(lia)) as (P1 & P2 & P3).
      unfold single_double in G. cbv zeta in P1, P2, P3, G. rewrite P1, P2, P3 in G. change (0 =? 255) with false in G. change (0 =? 0) with true in G. cbv iota in G.
      destruct (Z.eqb_spec q 0); [contradiction|]. replace (Z.log2 q + -149 + 1023) with (Z.log2 q + 874) by lia. exact G.
  - replace (Z.max (e - 1046) (-149)) with (e - 1046) by lia. replace (e - 1046 - (e - 1075)) with 29 by lia.
    assert (Q : 2 ^ 23 <= half_even (2 ^ 52 + m) 29 <= 2 ^ 24) by (apply half_even_bound; lia).
    set (q := half_even (2 ^ 52 + m) 29) in *. clearbody q. destruct (Z.eqb_spec q 0); [lia|].
    assert (Inf : is_single (Z.to_N (sg * 2 ^ 63 + 2047 * 2 ^ 52))).
    { pose proof (single_made sg 255 0 Hs ltac:(lia) ltac:(lia) ltac:(reflexivity)) as G. destruct (single_parts sg 255 0 ltac:(lia) ltac:(lia)) as (P1 & P2 & P3).
      unfold single_double in G. cbv zeta in P1, P2, P3, G. rewrite P1, P2, P3 in G. cbn [Z.eqb] in G. rewrite Z.add_0_r in G. exact G. }
    destruct (Z.leb_spec (2 ^ 128) (q * 2 ^ Z.max (e - 1046) 0)) as [Big|Small]; [exact Inf|].
    destruct (Z.eq_dec q (2 ^ 24)) as [->|Q1].
    + assert (E : e < 1150).
      { destruct (Z_lt_le_dec e 1150) as [|L]; [assumption|exfalso]. assert (2 ^ 104 <= 2 ^ Z.max (e - 1046) 0) by (apply Z.pow_le_mono_r; lia).
        assert (2 ^ 24 * 2 ^ 104 <= 2 ^ 24 * 2 ^ Z.max (e - 1046) 0) by (apply Z.mul_le_mono_nonneg_l; lia). lia. }
      rewrite Z.log2_pow2 by lia. pose proof (single_made sg (e - 895) 0 Hs ltac:(lia) ltac:(lia) ltac:(reflexivity)) as G. destruct (single_parts sg (e - 895) 0 ltac:(lia) ltac:(lia)) as (P1 & P2 & P3).
      unfold single_double in G. cbv zeta in P1, P2, P3, G. rewrite P1, P2, P3 in G. destruct (Z.eqb_spec (e - 895) 255); [lia|]. destruct (Z.eqb_spec (e - 895) 0); [lia|].
      replace (sg * 2 ^ 63 + (24 + (e - 1046) + 1023) * 2 ^ 52 + (2 ^ 24 - 2 ^ 24) * 2 ^ (52 - 24)) with (sg * 2 ^ 63 + (e - 895 + 896) * 2 ^ 52 + 0 * 2 ^ 29) by lia. exact G.
    + assert (K : Z.log2 q = 23) by (apply Z.log2_unique; lia). rewrite K.
      assert (E : e <= 1150).
      { destruct (Z_le_gt_dec e 1150) as [|L]; [assumption|exfalso]. assert (2 ^ 105 <= 2 ^ Z.max (e - 1046) 0) by (apply Z.pow_le_mono_r; lia).
        assert (2 ^ 23 * 2 ^ 105 <= q * 2 ^ Z.max (e - 1046) 0) by (apply Z.mul_le_mono_nonneg; lia). lia. }
      pose proof (single_made sg (e - 896) (q - 2 ^ 23) Hs ltac:(lia) ltac:(lia) ltac:(lia)) as G. destruct (single_parts sg (e - 896) (q - 2 ^ 23) ltac:(lia) ltac:(lia)) as (P1 & P2 & P3).
      unfold single_double in G. cbv zeta in P1, P2, P3, G. rewrite P1, P2, P3 in G. destruct (Z.eqb_spec (e - 896) 255); [lia|]. destruct (Z.eqb_spec (e - 896) 0); [lia|].
      replace (23 + (e - 1046) + 1023) with (e - 896 + 896) by lia. exact G.
Qed.
Lemma is_single_bound b : is_single b -> (b < 18446744073709551616)%N.
Proof. intros (v & Hv & -> & _). pose proof (single_range v Hv). lia. Qed.
Lemma to_float_again b : (b < 18446744073709551616)%N -> to_float (to_float b) = to_float b /\ (to_float b < 18446744073709551616)%N.
Proof.
  intros Hb. destruct (to_float_kind b Hb) as [H|(sg & m & Hs & Hm & ->)]; [split; [apply to_float_single; assumption|apply is_single_bound; assumption]|].
  pose proof (quiet_range m Hm) as R. pose proof (quiet_again m) as A. cbv zeta in R, A. set (w := Z.lor (m / 2 ^ 29 * 2 ^ 29) (2 ^ 51)) in *. clearbody w.
  split; [|change 18446744073709551616%N with (Z.to_N (2 ^ 64)); lia].
  unfold to_float. rewrite Z2N.id by lia. destruct (to_float_parts sg 2047 w Hs ltac:(lia) ltac:(lia)) as (P1 & P2 & P3 & P4). cbv zeta in P1, P2, P3, P4.
  rewrite P1, P2, P3. cbn [Z.eqb]. change (Pos.eqb 2047 2047) with true. cbv iota. destruct (Z.eqb_spec w 0); [lia|]. rewrite A. reflexivity.
Qed.
