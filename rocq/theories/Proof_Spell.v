(** The reader reads exactly the spellings. *)
From Verif Require Import PyBase PyBaseFacts Model_Msgpack Spec_Msgpack Spec_Index Spec_Spell Proof_Msgpack Proof_Cut.
Local Open Scope Z_scope.

Lemma big_endian_app a b : big_endian (a ++ b) = big_endian a * 256 ^ zlen b + big_endian b.
Proof.
  induction a as [|d a IH]; cbn [app big_endian]; [lia|]. rewrite IH. unfold zlen. rewrite app_length, Nat2Z.inj_add, Z.pow_add_r by lia. ring.
Qed.
Lemma big_endian_unbe ds : big_endian ds = unbe ds.
Proof.
  induction ds as [|d ds IH] using rev_ind; [reflexivity|]. rewrite big_endian_app, unbe_snoc, IH. cbn [big_endian]. change (zlen [d]) with 1. change (zlen (@nil N)) with 0. lia.
Qed.

(** ** UTF-8 *)
Lemma utf8_of_char c b : utf8_of c b <-> utf8_char c = Ok b.
Proof.
  unfold utf8_char, is_surrogate. split.
  - intros [c0 H|c0 H|c0 H Hs|c0 H].
    + destruct (N.ltb_spec c0 0x80); [reflexivity|lia].
    + destruct (N.ltb_spec c0 0x80); [lia|]. destruct (N.ltb_spec c0 0x800); [reflexivity|lia].
    + destruct (N.ltb_spec c0 0x80); [lia|]. destruct (N.ltb_spec c0 0x800); [lia|].
      destruct (N.leb_spec 0xD800 c0); destruct (N.leb_spec c0 0xDFFF); cbn [andb]; try (exfalso; apply Hs; lia); (destruct (N.ltb_spec c0 0x10000); [reflexivity|lia]).
    + destruct (N.ltb_spec c0 0x80); [lia|]. destruct (N.ltb_spec c0 0x800); [lia|].
      destruct (N.leb_spec 0xD800 c0); destruct (N.leb_spec c0 0xDFFF); cbn [andb]; try lia; (destruct (N.ltb_spec c0 0x10000); [lia|]; destruct (N.ltb_spec c0 0x110000); [reflexivity|lia]).
  - destruct (N.ltb_spec c 0x80); [intros H'; apply Ok_inj in H'; subst b; constructor; lia|].
    destruct (N.ltb_spec c 0x800); [intros H'; apply Ok_inj in H'; subst b; constructor; lia|].
    destruct (N.leb_spec 0xD800 c); destruct (N.leb_spec c 0xDFFF); cbn [andb]; try discriminate;
      (destruct (N.ltb_spec c 0x10000); [intros H'; apply Ok_inj in H'; subst b; constructor; lia|]);
      (destruct (N.ltb_spec c 0x110000); [intros H'; apply Ok_inj in H'; subst b; constructor; lia|discriminate]).
Qed.
Lemma utf8_encoded bs x : utf8 bs x <-> utf8_encode x = Ok bs.
Proof.
  split.
  - induction 1 as [|c b bs x Hc Hx IH]; [reflexivity|]. cbn [utf8_encode]. apply utf8_of_char in Hc. rewrite Hc, IH. reflexivity.
  - revert bs. induction x as [|c x IH]; intros bs H; cbn [utf8_encode] in H; [apply Ok_inj in H; subst; constructor|].
    destruct (utf8_char c) as [b|] eqn:E; [|discriminate]. cbn [rbind] in H. destruct (utf8_encode x) as [q|]; [|discriminate]. apply Ok_inj in H. subst bs.
    constructor; [apply utf8_of_char; assumption|apply IH; reflexivity].
Qed.
Lemma utf8_decoded bs x : utf8 bs x <-> utf8_decode bs = Ok x.
Proof. rewrite utf8_encoded. split; [apply utf8_round|apply (utf8_strict (length bs)); lia]. Qed.

(** ** singles *)
Lemma bits_parts g e m : (g = 0 \/ g = 1) -> 0 <= e < 2 ^ 11 -> 0 <= m < 2 ^ 52 ->
  let b := Z.to_N (g * 2 ^ 63 + e * 2 ^ 52 + m) in (b < 18446744073709551616)%N /\ (negative b <-> g = 1) /\ exponent b = e /\ fraction b = m.
Proof.
  intros Hg He Hm b. assert (Eb : Z.of_N b = g * 2 ^ 63 + e * 2 ^ 52 + m) by (unfold b; rewrite Z2N.id; lia). unfold negative, exponent, fraction. rewrite Eb.
  split; [unfold b; lia|]. split; [lia|]. split.
  - replace (g * 2 ^ 63 + e * 2 ^ 52 + m) with (m + (g * 2 ^ 11 + e) * 2 ^ 52) by lia. rewrite Z.div_add, Z.div_small by lia. cbn [Z.add]. rewrite Z.add_comm, Z.mod_add by lia. apply Z.mod_small. lia.
  - replace (g * 2 ^ 63 + e * 2 ^ 52 + m) with (m + (g * 2 ^ 11 + e) * 2 ^ 52) by lia. rewrite Z.mod_add by lia. apply Z.mod_small. lia.
Qed.
Lemma parts_bits b : (b < 18446744073709551616)%N -> exists g, (g = 0 \/ g = 1) /\ (negative b <-> g = 1) /\ Z.of_N b = g * 2 ^ 63 + exponent b * 2 ^ 52 + fraction b /\
  0 <= exponent b < 2 ^ 11 /\ 0 <= fraction b < 2 ^ 52.
Proof.
  intros Hb. exists (Z.of_N b / 2 ^ 63). unfold negative, exponent, fraction. set (z := Z.of_N b). assert (Hz : 0 <= z < 2 ^ 64) by (unfold z; lia).
  assert (G : z / 2 ^ 63 = 0 \/ z / 2 ^ 63 = 1). { assert (0 <= z / 2 ^ 63) by (apply Z.div_pos; lia). assert (z / 2 ^ 63 < 2) by (apply Z.div_lt_upper_bound; lia). lia. }
  split; [assumption|]. pose proof (Z.div_mod z (2 ^ 63) ltac:(lia)) as D. pose proof (Z.mod_pos_bound z (2 ^ 63) ltac:(lia)) as B. split; [lia|].
  pose proof (Z.div_mod z (2 ^ 52) ltac:(lia)) as D2. pose proof (Z.mod_pos_bound z (2 ^ 52) ltac:(lia)) as B2.
  pose proof (Z.div_mod (z / 2 ^ 52) (2 ^ 11) ltac:(lia)) as D3. pose proof (Z.mod_pos_bound (z / 2 ^ 52) (2 ^ 11) ltac:(lia)) as B3.
  assert (z / 2 ^ 52 / 2 ^ 11 = z / 2 ^ 63) as E by (rewrite Z.div_div by lia; reflexivity). rewrite E in D3. repeat split; try lia.
Qed.
Lemma single_double_single v : 0 <= v < 4294967296 -> single v (Z.to_N (single_double v)).
Proof.
  intros Hv. unfold single, single_double, exponent32, units32, exponent32, fraction32. change (2 ^ 8) with 256.
  pose proof (Z.mod_pos_bound (v / 2 ^ 23) 256 ltac:(lia)) as He. pose proof (Z.mod_pos_bound v (2 ^ 23) ltac:(lia)) as Hm.
  pose proof (Z.div_mod v (2 ^ 31) ltac:(lia)) as D. pose proof (Z.mod_pos_bound v (2 ^ 31) ltac:(lia)) as B.
  assert (Hs : v / 2 ^ 31 = 0 \/ v / 2 ^ 31 = 1) by (assert (0 <= v / 2 ^ 31) by (apply Z.div_pos; lia); assert (v / 2 ^ 31 < 2) by (apply Z.div_lt_upper_bound; lia); lia).
  assert (HG : v / 2 ^ 31 = 1 <-> 2 ^ 31 <= v) by lia.
  set (g := v / 2 ^ 31) in *. set (e := (v / 2 ^ 23) mod 256) in *. set (m := v mod 2 ^ 23) in *. cbv zeta. clearbody g e m.
  destruct (Z.eqb_spec e 255) as [->|N].
  - assert (R : 0 <= (if m =? 0 then 0 else Z.lor (m * 2 ^ 29) (2 ^ 51)) < 2 ^ 52).
    { destruct (Z.eqb_spec m 0); [lia|]. assert (0 <= Z.lor (m * 2 ^ 29) (2 ^ 51)) by (apply Z.lor_nonneg; lia). split; [assumption|].
      assert (Z.lor (m * 2 ^ 29) (2 ^ 51) <> 0) by (intros X; apply Z.lor_eq_0_iff in X; lia).
      apply Z.log2_lt_pow2; [lia|]. rewrite Z.log2_lor by lia. apply Z.max_lub_lt; [apply Z.log2_lt_pow2; lia|reflexivity]. }
    destruct (bits_parts g 2047 _ Hs ltac:(lia) R) as (P1 & P2 & P3 & P4). cbv zeta in *. split; [exact P1|]. rewrite P2, P3, P4. split; [exact HG|]. split; [congruence|]. intros _. split; [reflexivity|].
    destruct (Z.eqb_spec m 0); split; intros; congruence.
  - destruct (Z.eqb_spec e 0) as [->|N0].
    + destruct (Z.eqb_spec m 0) as [->|Nm].
      * destruct (bits_parts g 0 0 Hs ltac:(lia) ltac:(lia)) as (P1 & P2 & P3 & P4). rewrite !Z.mul_0_l, !Z.add_0_r in *. cbv zeta in *. unfold units64. split; [exact P1|]. rewrite P2, P3, P4.
        split; [exact HG|]. split; [intros _; split; [discriminate|reflexivity]|]. intros X. discriminate X.
      * pose proof (Z.log2_spec m ltac:(lia)) as [L1 L2]. assert (Hk : Z.log2 m < 23) by (apply Z.log2_lt_pow2; lia). pose proof (Z.log2_nonneg m) as Hk0. set (k := Z.log2 m) in *. clearbody k.
        assert (Ep : 2 ^ 52 = 2 ^ k * 2 ^ (52 - k)) by (rewrite <- Z.pow_add_r by lia; f_equal; lia). rewrite Z.pow_succ_r in L2 by lia. assert (P0 : 0 < 2 ^ (52 - k)) by (apply Z.pow_pos_nonneg; lia).
        assert (R : 0 <= (m - 2 ^ k) * 2 ^ (52 - k) < 2 ^ 52) by (rewrite Ep; split; [apply Z.mul_nonneg_nonneg; lia|apply Z.mul_lt_mono_pos_r; lia]).
        destruct (bits_parts g (k + 874) _ Hs ltac:(lia) R) as (P1 & P2 & P3 & P4). cbv zeta in *. unfold units64. split; [exact P1|]. rewrite P2, P3, P4. split; [exact HG|].
        split; [|intros X; discriminate X]. intros _. split; [lia|]. destruct (Z.eqb_spec (k + 874) 0); [lia|]. cbn [Z.eqb].
        rewrite Ep, <- Z.mul_add_distr_r. replace (2 ^ k + (m - 2 ^ k)) with m by lia. rewrite <- Z.mul_assoc, <- Z.pow_add_r by lia. do 2 f_equal. lia.
    + destruct (bits_parts g (e + 896) (m * 2 ^ 29) Hs ltac:(lia) ltac:(lia)) as (P1 & P2 & P3 & P4). cbv zeta in *. unfold units64. split; [exact P1|]. rewrite P2, P3, P4. split; [exact HG|].
      split; [|intros X; contradiction]. intros _. split; [lia|]. destruct (Z.eqb_spec (e + 896) 0); [lia|]. destruct (Z.eqb_spec e 0); [contradiction|].
      replace (2 ^ 52 + m * 2 ^ 29) with ((2 ^ 23 + m) * 2 ^ 29) by lia. rewrite <- !Z.mul_assoc, <- !Z.pow_add_r by lia. do 2 f_equal. lia.
Qed.
(** the magnitude determines the exponent and the fraction *)
Lemma units_inj e m e' m' : 0 <= e -> 0 <= m < 2 ^ 52 -> 0 <= e' -> 0 <= m' < 2 ^ 52 ->
  (if e =? 0 then m else (2 ^ 52 + m) * 2 ^ (e - 1)) = (if e' =? 0 then m' else (2 ^ 52 + m') * 2 ^ (e' - 1)) -> e = e' /\ m = m'.
Proof.
  assert (K : forall e m e' m', 0 < e' -> 0 <= e < e' -> 0 <= m < 2 ^ 52 -> 0 <= m' < 2 ^ 52 -> (if e =? 0 then m else (2 ^ 52 + m) * 2 ^ (e - 1)) < (2 ^ 52 + m') * 2 ^ (e' - 1)).
  { clear. intros e m e' m' P He Hm Hm'. assert (Q : 2 ^ 0 <= 2 ^ (e' - 1)) by (apply Z.pow_le_mono_r; lia). change (2 ^ 0) with 1 in Q. destruct (Z.eqb_spec e 0); [nia|].
    assert (Q2 : 2 * 2 ^ (e - 1) <= 2 ^ (e' - 1)) by (rewrite <- Z.pow_succ_r by lia; apply Z.pow_le_mono_r; lia). assert (0 < 2 ^ (e - 1)) by (apply Z.pow_pos_nonneg; lia). nia. }
  intros He Hm He' Hm' H. destruct (Z.lt_trichotomy e e') as [L|[E|L]].
  - specialize (K e m e' m' ltac:(lia) ltac:(lia) Hm Hm'). destruct (Z.eqb_spec e' 0); lia.
  - subst e'. split; [reflexivity|]. destruct (Z.eqb_spec e 0); [assumption|]. apply Z.mul_cancel_r in H; [lia|]. apply Z.pow_nonzero; lia.
  - specialize (K e' m' e m ltac:(lia) ltac:(lia) Hm' Hm). destruct (Z.eqb_spec e 0); lia.
Qed.
Lemma single_unique v b b' : single v b -> single v b' -> b = b'.
Proof.
  intros (B & S & F & I) (B' & S' & F' & I'). destruct (parts_bits b B) as (g & Hg & Ng & Eb & He & Hm). destruct (parts_bits b' B') as (g' & Hg' & Ng' & Eb' & He' & Hm').
  assert (g = g') as <-. { rewrite Ng in S. rewrite Ng' in S'. lia. }
  assert (exponent b = exponent b' /\ fraction b = fraction b') as [E1 E2].
  { destruct (Z.eq_dec (exponent32 v) 255) as [X|X].
    - destruct (I X) as (P & P0 & P1), (I' X) as (P' & P0' & P1'). split; [congruence|]. destruct (Z.eq_dec (fraction32 v) 0) as [Y|Y]; [rewrite (P0 Y), (P0' Y)|rewrite (P1 Y), (P1' Y)]; reflexivity.
    - destruct (F X) as [_ U], (F' X) as [_ U']. apply units_inj; try lia. fold (units64 b). fold (units64 b'). congruence. }
  apply N2Z.inj. rewrite Eb, Eb', E1, E2. reflexivity.
Qed.

(** ** what the first byte says *)
Definition tag_bytes (b : N) (t : tag) : Prop :=
  match t with
  | TgInt z => (0 <= z < 128 /\ b = Z.to_N z) \/ (-32 <= z < 0 /\ b = Z.to_N (z + 256))
  | TgMap n => 0 <= n < 16 /\ b = Z.to_N (0x80 + n)
  | TgArr n => 0 <= n < 16 /\ b = Z.to_N (0x90 + n)
  | TgStr n => 0 <= n < 32 /\ b = Z.to_N (0xA0 + n)
  | TgNil => b = 0xC0%N
  | TgBool x => b = if x then 0xC3%N else 0xC2%N
  | TgBin k => In (b, k) [(0xC4%N, 1); (0xC5%N, 2); (0xC6%N, 4)]
  | TgFloat => b = 0xCB%N
  | TgUint k => In (b, k) [(0xCC%N, 1); (0xCD%N, 2); (0xCE%N, 4); (0xCF%N, 8)]
  | TgSint k => In (b, k) [(0xD0%N, 1); (0xD1%N, 2); (0xD2%N, 4); (0xD3%N, 8)]
  | TgStrN k => In (b, k) [(0xD9%N, 1); (0xDA%N, 2); (0xDB%N, 4)]
  | TgArrN k => In (b, k) [(0xDC%N, 2); (0xDD%N, 4)]
  | TgMapN k => In (b, k) [(0xDE%N, 2); (0xDF%N, 4)]
  | TgFloat32 => b = 0xCA%N
  | _ => True
  end.
Lemma classify_bytes b : (b < 256)%N -> tag_bytes b (classify b).
Proof.
  intros Hb. unfold classify.
  destruct (Z.ltb_spec (Z.of_N b) 0x80); [unfold tag_bytes; lia|]. destruct (Z.ltb_spec (Z.of_N b) 0x90); [unfold tag_bytes; lia|].
  destruct (Z.ltb_spec (Z.of_N b) 0xA0); [unfold tag_bytes; lia|]. destruct (Z.ltb_spec (Z.of_N b) 0xC0); [unfold tag_bytes; lia|].
  destruct (Z.ltb_spec (Z.of_N b) 0xE0).
  - repeat match goal with |- tag_bytes _ (match ?x with _ => _ end) => destruct x end; cbn; tauto.
  - destruct (Z.ltb_spec (Z.of_N b) 256); unfold tag_bytes; lia.
Qed.
Lemma read_spelled k bs v r : 0 <= k -> read_uint k bs = Ok (v, r) -> exists ds, bs = ds ++ r /\ zlen ds = k /\ big_endian ds = v.
Proof.
  unfold read_uint. intros Hk H. destruct (take k bs) as [[a b]|] eqn:E; [|discriminate]. cbn [rbind] in H. apply take_ok in E. destruct E as [-> L].
  assert (v = unbe a /\ r = b) as [-> ->] by (split; congruence). exists a. rewrite big_endian_unbe. auto.
Qed.
Lemma ustr_spelled n bs o r : 0 <= n -> unpack_str n bs = Ok (o, r) -> exists b x, bs = b ++ r /\ zlen b = n /\ utf8 b x /\ o = MStr x.
Proof.
  unfold unpack_str. intros Hn H. destruct (take n bs) as [[a b]|] eqn:E; [|discriminate]. cbn [rbind] in H. apply take_ok in E. destruct E as [-> L].
  destruct (utf8_decode a) as [x|] eqn:D; [|discriminate]. cbn [rbind] in H. exists a, x. assert (o = MStr x /\ r = b) as [-> ->] by (split; congruence). rewrite utf8_decoded. auto.
Qed.
Definition sound_reader (u : unpacker) : Prop := forall bs o r, bytes bs -> u bs = Ok (o, r) -> exists p, bs = p ++ r /\ spells p o.
Lemma ulist_spelled u : sound_reader u -> forall n bs os r, bytes bs -> unpack_list u n bs = Ok (os, r) -> length os = n /\ exists ps, bs = List.concat ps ++ r /\ Forall2 spells ps os.
Proof.
  intros Hu. induction n as [|n IH]; intros bs os r Hb H; cbn [unpack_list] in H.
  - assert (os = [] /\ r = bs) as [-> ->] by (split; congruence). split; [reflexivity|]. exists []. split; [reflexivity|constructor].
  - destruct (u bs) as [[o r1]|] eqn:E; [|discriminate]. cbn [rbind] in H. destruct (unpack_list u n r1) as [[q r2]|] eqn:E2; [|discriminate]. cbn [rbind] in H.
    assert (os = o :: q /\ r = r2) as [-> ->] by (split; congruence). apply Hu in E; [|assumption]. destruct E as (p & -> & S). apply bytes_app in Hb. destruct Hb as [_ Hb].
    destruct (IH _ _ _ Hb E2) as (L & ps & -> & F). split; [cbn [length]; lia|]. exists (p :: ps). split; [cbn [List.concat]; rewrite app_assoc; reflexivity|constructor; assumption].
Qed.
Definition entry (p : list N * list N) (e : pystr * mobj) : Prop := spells (fst p) (MStr (fst e)) /\ spells (snd p) (snd e).
Lemma umap_spelled u : sound_reader u -> forall n acc bs d r, bytes bs -> unpack_map u n acc bs = Ok (d, r) ->
  exists ps es, bs = List.concat (map (fun p => fst p ++ snd p) ps) ++ r /\ length es = n /\ Forall2 entry ps es /\ d = fold_left (fun d e => dset d (fst e) (snd e)) es acc.
Proof.
  intros Hu. induction n as [|n IH]; intros acc bs d r Hb H; cbn [unpack_map] in H.
  - assert (d = acc /\ r = bs) as [-> ->] by (split; congruence). exists [], []. repeat split. constructor.
  - destruct (u bs) as [[o r1]|] eqn:E; [|discriminate]. cbn [rbind] in H. destruct o as [| | | |x| | |]; try discriminate. destruct (u r1) as [[v r2]|] eqn:E2; [|discriminate]. cbn [rbind] in H.
    apply Hu in E; [|assumption]. destruct E as (p & -> & S). apply bytes_app in Hb. destruct Hb as [_ Hb]. apply Hu in E2; [|assumption]. destruct E2 as (q & -> & S2). apply bytes_app in Hb. destruct Hb as [_ Hb].
    destruct (IH _ _ _ _ Hb H) as (ps & es & -> & L & F & ->). exists ((p, q) :: ps), ((x, v) :: es). split; [cbn [map List.concat fst snd]; rewrite !app_assoc; reflexivity|].
    split; [cbn [length]; lia|]. split; [constructor; [split; assumption|assumption]|reflexivity].
Qed.
Lemma unpack_spelled f : sound_reader (unpack f).
Proof.
  induction f as [|f IH]; intros bs o r Hb H; [discriminate|]. destruct bs as [|b bs]; [discriminate|]. inversion Hb as [|? ? Hb0 Hb']; subst.
  pose proof (classify_bytes b Hb0) as T. pose proof (classify_range b Hb0) as R. rewrite unpack_S in H.
  destruct (classify b) as [z|n|n|n| |x|k| |k|k|k|k|k| |n|k|]; cbn [tag_bytes tag_range] in T, R; try discriminate H.
  - assert (o = MInt z /\ r = bs) as [-> ->] by (split; congruence). exists [b]. split; [reflexivity|]. destruct T as [[T ->]|[T ->]].
    + rewrite <- (Z2N.id z) at 2 by lia. constructor. lia.
    + replace z with (Z.of_N (Z.to_N (z + 256)) - 256) at 2 by lia. constructor. lia.
  - destruct (unpack_map _ _ _ bs) as [[d r1]|] eqn:E; [|discriminate]. cbn [rbind] in H. assert (o = MMap d /\ r = r1) as [-> ->] by (split; congruence).
    apply (umap_spelled _ IH) in E; [|assumption]. destruct E as (ps & es & -> & L & F & ->). exists ([b] ++ List.concat (map (fun p => fst p ++ snd p) ps)). split; [reflexivity|].
    constructor; [|exact F]. left. destruct T as [T ->]. replace (zlen es) with n by (unfold zlen; lia). split; [lia|reflexivity].
  - destruct (unpack_list _ _ bs) as [[d r1]|] eqn:E; [|discriminate]. cbn [rbind] in H. assert (o = MArr d /\ r = r1) as [-> ->] by (split; congruence).
    apply (ulist_spelled _ IH) in E; [|assumption]. destruct E as (L & ps & -> & F). exists ([b] ++ List.concat ps). split; [reflexivity|].
    constructor; [|exact F]. left. destruct T as [T ->]. replace (zlen d) with n by (unfold zlen; lia). split; [lia|reflexivity].
  - apply ustr_spelled in H; [|lia]. destruct H as (a & x & -> & L & U & ->). exists ([b] ++ a). split; [reflexivity|]. constructor; [|assumption]. left. destruct T as [T ->]. rewrite L. split; [lia|reflexivity].
  - assert (o = MNil /\ r = bs) as [-> ->] by (split; congruence). exists [b]. split; [reflexivity|]. subst b. constructor.
  - assert (o = MBool x /\ r = bs) as [-> ->] by (split; congruence). exists [b]. split; [reflexivity|]. subst b. constructor.
  - destruct (read_uint k bs) as [[n r1]|] eqn:E; [|discriminate]. cbn [rbind] in H. destruct (take n r1) as [[x r2]|] eqn:E2; [|discriminate]. cbn [rbind] in H.
    assert (o = MBin x /\ r = r2) as [-> ->] by (split; congruence). pose proof E as E0. apply read_uint_ok in E0; [|lia|assumption]. destruct E0 as (_ & _ & _ & Rn).
    apply read_spelled in E; [|lia]. destruct E as (ds & -> & L & V). apply take_ok in E2. destruct E2 as [-> Lx]. specialize (Lx ltac:(lia)).
    exists ((b :: ds) ++ x). split; [cbn [app]; rewrite app_assoc; reflexivity|]. constructor. right. exists b, k, ds. rewrite Lx. auto.
  - destruct (read_uint 8 bs) as [[n r1]|] eqn:E; [|discriminate]. cbn [rbind] in H. assert (o = MFloat (Z.to_N n) /\ r = r1) as [-> ->] by (split; congruence).
    apply read_spelled in E; [|lia]. destruct E as (ds & -> & L & V). exists (b :: ds). split; [reflexivity|]. subst b n. constructor. assumption.
  - destruct (read_uint k bs) as [[n r1]|] eqn:E; [|discriminate]. cbn [rbind] in H. assert (o = MInt n /\ r = r1) as [-> ->] by (split; congruence).
    apply read_spelled in E; [|lia]. destruct E as (ds & -> & L & V). exists (b :: ds). split; [reflexivity|]. subst n. econstructor; eassumption.
  - destruct (read_uint k bs) as [[n r1]|] eqn:E; [|discriminate]. cbn [rbind] in H. assert (o = MInt (to_signed k n) /\ r = r1) as [-> ->] by (split; congruence).
    apply read_spelled in E; [|lia]. destruct E as (ds & -> & L & V). exists (b :: ds). split; [reflexivity|]. subst n. change (to_signed k (big_endian ds)) with (two_complement k (big_endian ds)). econstructor; eassumption.
  - destruct (read_uint k bs) as [[n r1]|] eqn:E; [|discriminate]. cbn [rbind] in H. pose proof E as E0. apply read_uint_ok in E0; [|lia|assumption]. destruct E0 as (_ & _ & _ & Rn).
    apply read_spelled in E; [|lia]. destruct E as (ds & -> & L & V). apply ustr_spelled in H; [|lia]. destruct H as (a & x & -> & La & U & ->).
    exists ((b :: ds) ++ a). split; [cbn [app]; rewrite app_assoc; reflexivity|]. constructor; [|assumption]. right. exists b, k, ds. rewrite La. auto.
  - destruct (read_uint k bs) as [[n r1]|] eqn:E; [|discriminate]. cbn [rbind] in H. destruct (unpack_list _ _ r1) as [[d r2]|] eqn:E2; [|discriminate]. cbn [rbind] in H.
    assert (o = MArr d /\ r = r2) as [-> ->] by (split; congruence). pose proof E as E0. apply read_uint_ok in E0; [|lia|assumption]. destruct E0 as (_ & _ & _ & Rn).
    apply read_spelled in E; [|lia]. destruct E as (ds & -> & L & V). apply bytes_app in Hb'. apply (ulist_spelled _ IH) in E2; [|tauto]. destruct E2 as (Ld & ps & -> & F).
    exists ((b :: ds) ++ List.concat ps). split; [cbn [app]; rewrite app_assoc; reflexivity|]. constructor; [|exact F]. right. exists b, k, ds. replace (zlen d) with n by (unfold zlen; lia). auto.
  - destruct (read_uint k bs) as [[n r1]|] eqn:E; [|discriminate]. cbn [rbind] in H. destruct (unpack_map _ _ _ r1) as [[d r2]|] eqn:E2; [|discriminate]. cbn [rbind] in H.
    assert (o = MMap d /\ r = r2) as [-> ->] by (split; congruence). pose proof E as E0. apply read_uint_ok in E0; [|lia|assumption]. destruct E0 as (_ & _ & _ & Rn).
    apply read_spelled in E; [|lia]. destruct E as (ds & -> & L & V). apply bytes_app in Hb'. apply (umap_spelled _ IH) in E2; [|tauto]. destruct E2 as (ps & es & -> & Ld & F & ->).
    exists ((b :: ds) ++ List.concat (map (fun p => fst p ++ snd p) ps)). split; [cbn [app]; rewrite app_assoc; reflexivity|]. constructor; [|exact F]. right. exists b, k, ds. replace (zlen es) with n by (unfold zlen; lia). auto.
  - destruct (read_uint 4 bs) as [[n r1]|] eqn:E; [|discriminate]. cbn [rbind] in H. assert (o = MFloat (Z.to_N (single_double n)) /\ r = r1) as [-> ->] by (split; congruence).
    pose proof E as E0. apply read_uint_ok in E0; [|lia|assumption]. destruct E0 as (_ & _ & _ & Rn).
    apply read_spelled in E; [|lia]. destruct E as (ds & -> & L & V). exists (b :: ds). split; [reflexivity|]. subst b n. constructor; [assumption|]. apply single_double_single. exact Rn.
Qed.
