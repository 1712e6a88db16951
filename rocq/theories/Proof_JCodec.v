(** What the Java unpacker reads of packed objects; schema and texts. *)
From Verif Require Import PyBase PyBaseFacts Model_Text Model_Heap Model_Layer Model_Types Model_Msgpack Model_Document Model_Codec Model_JUnits Model_JLayer Model_JStream Model_JCodec
  Spec_Layer Spec_Types Spec_Msgpack Spec_Document Spec_Codec Spec_JUnits Spec_JCodec Proof_Text Proof_Msgpack Proof_Layout Proof_Codec Proof_JStream Proof_JUnits.
Local Open Scope Z_scope.
Local Arguments s : simpl never.

(** ** single objects *)
Notation short b := (zlen b < 2147483648) (only parsing).
Lemma zlen_app' {A} (a b : list A) : zlen (a ++ b) = zlen a + zlen b.
Proof. unfold zlen. rewrite app_length. lia. Qed.
Lemma short_l {A} (a b : list A) : short (a ++ b) -> short a.
Proof. rewrite zlen_app'. pose proof (zlen_nonneg b). lia. Qed.
Lemma short_r {A} (a b : list A) : short (a ++ b) -> short b.
Proof. rewrite zlen_app'. pose proof (zlen_nonneg a). lia. Qed.
Lemma mu_int_pack z b rest : pack (MInt z) = Ok b -> int_range z -> mu_int (b ++ rest) = Ok (z, rest).
Proof.
  intros H R. rewrite (mu_int_of _ z rest) by (apply unpack1_pack; [constructor|assumption]). unfold int_range in R.
  destruct (Z.ltb_spec z (-2147483648)); [lia|]. destruct (Z.ltb_spec 2147483647 z); [lia|]. reflexivity.
Qed.
Lemma mu_long_of bs v r : unpack1 bs = Ok (MInt v, r) -> mu_long bs = if 2 ^ 63 <=? v then Err OverflowError else Ok (v, r).
Proof.
  unfold unpack1. destruct bs as [|b bs]; [discriminate|]. rewrite unpack_S. unfold mu_long, mu_uint.
  destruct (classify b) as [z| | |n| | | | | | | | | | | |  | ]; intros H; try discriminate;
    try (unfold unpack_str in H; destruct (take n bs) as [[? ?]|]; [|discriminate]; cbn [rbind] in H; destruct (utf8_decode l); discriminate).
  - injection H as -> ->. reflexivity.
  - destruct (unpack_map _ _ _ _) as [[? ?]|]; discriminate.
  - destruct (unpack_list _ _ _) as [[? ?]|]; discriminate.
  - destruct (read_uint k bs) as [[? q]|]; [|discriminate]. cbn [rbind] in H. destruct (take z q) as [[? ?]|]; discriminate.
  - destruct (read_uint 8 bs) as [[? ?]|]; discriminate.
  - destruct (read_uint k bs) as [[? ?]|]; [|discriminate]. cbn [rbind] in *. injection H as -> ->. reflexivity.
  - destruct (read_uint k bs) as [[? ?]|]; [|discriminate]. cbn [rbind] in *. injection H as <- ->. reflexivity.
  - destruct (read_uint k bs) as [[? q]|]; [|discriminate]. cbn [rbind] in H. unfold unpack_str in H. destruct (take z q) as [[x ?]|]; [|discriminate]. cbn [rbind] in H. destruct (utf8_decode x); discriminate.
  - destruct (read_uint k bs) as [[? q]|]; [|discriminate]. cbn [rbind] in H. destruct (unpack_list _ _ _) as [[? ?]|]; discriminate.
  - destruct (read_uint k bs) as [[? q]|]; [|discriminate]. cbn [rbind] in H. destruct (unpack_map _ _ _ _) as [[? ?]|]; discriminate.
  - destruct (read_uint 4 bs) as [[? ?]|]; discriminate.
Qed.
Lemma mu_long_pack z b rest : pack (MInt z) = Ok b -> long_range z -> mu_long (b ++ rest) = Ok (z, rest).
Proof.
  intros H R. rewrite (mu_long_of _ z rest) by (apply unpack1_pack; [constructor|assumption]). unfold long_range in R.
  destruct (Z.leb_spec (2 ^ 63) z); [lia|]. reflexivity.
Qed.
Lemma mu_bool_pack x b rest : pack (MBool x) = Ok b -> mu_bool (b ++ rest) = Ok (x, rest).
Proof. destruct x; intros H; apply Ok_inj in H; subst b; reflexivity. Qed.
Lemma mu_double_pack x b rest : pack (MFloat x) = Ok b -> (x < 18446744073709551616)%N -> mu_double (b ++ rest) = Ok (x, rest).
Proof.
  intros H X. apply Ok_inj in H. subst b. rewrite <- app_comm_cons. unfold mu_double. change (classify 0xCB) with TgFloat. cbv iota.
  rewrite (mu_uint_ok _ _ _ (read8 (Z.of_N x) rest ltac:(lia))). cbn [rbind]. rewrite N2Z.id. reflexivity.
Qed.
Lemma mu_string_pack x b rest : pack (MStr x) = Ok b -> short b -> mu_string (b ++ rest) = Ok (x, rest).
Proof.
  intros H S. destruct (mu_name x b rest H) as (u & U & V & _). unfold mu_string.
  cbn [pack] in H. unfold pack_str in H. rewrite U in H. cbn [rbind] in H. destruct (str_head (zlen u)) as [hd|]; [|discriminate]. apply Ok_inj in H. subst b.
  rewrite V by (apply short_r in S; exact S). cbn [rbind]. rewrite (utf8_round _ _ U). reflexivity.
Qed.
Lemma mu_array_pack n hd rest : 0 <= n < 2147483648 -> arr_head n = Ok hd -> mu_array (hd ++ rest) = Ok (n, rest).
Proof.
  intros R. unfold arr_head, mu_array. destruct (Z.ltb_spec n 16); [|destruct (Z.ltb_spec n (2 ^ 16)); [|destruct (Z.ltb_spec n (2 ^ 32)); [|discriminate]]];
    intros H'; apply Ok_inj in H'; subst hd; cbn [app].
  - rewrite classify_arr by lia. reflexivity.
  - change (classify 0xDC) with (TgArrN 2). cbv iota. rewrite (mu_uint_ok _ _ _ (read2 n rest ltac:(lia))). cbn [rbind]. destruct (Z.ltb_spec 2147483647 n); [lia|]. reflexivity.
  - change (classify 0xDD) with (TgArrN 4). cbv iota. rewrite (mu_uint_ok _ _ _ (read4 n rest ltac:(lia))). cbn [rbind]. destruct (Z.ltb_spec 2147483647 n); [lia|]. reflexivity.
Qed.
Lemma mu_map_pack n hd rest : 0 <= n < 2147483648 -> map_head n = Ok hd -> mu_map (hd ++ rest) = Ok (n, rest).
Proof.
  intros R. unfold map_head, mu_map. destruct (Z.ltb_spec n 16); [|destruct (Z.ltb_spec n (2 ^ 16)); [|destruct (Z.ltb_spec n (2 ^ 32)); [|discriminate]]];
    intros H'; apply Ok_inj in H'; subst hd; cbn [app].
  - rewrite classify_map by lia. reflexivity.
  - change (classify 0xDE) with (TgMapN 2). cbv iota. rewrite (mu_uint_ok _ _ _ (read2 n rest ltac:(lia))). cbn [rbind]. destruct (Z.ltb_spec 2147483647 n); [lia|]. reflexivity.
  - change (classify 0xDF) with (TgMapN 4). cbv iota. rewrite (mu_uint_ok _ _ _ (read4 n rest ltac:(lia))). cbn [rbind]. destruct (Z.ltb_spec 2147483647 n); [lia|]. reflexivity.
Qed.
Lemma mu_value_pack o b rest : python_value o -> pack o = Ok b -> mu_value (b ++ rest) = Ok (o, rest).
Proof. intros P H. unfold mu_value. rewrite (unpack1_pack _ _ _ P H). reflexivity. Qed.
Lemma mu_try_nil_pack o b rest : python_value o -> pack o = Ok b -> o <> MNil -> mu_try_nil (b ++ rest) = Ok (false, b ++ rest).
Proof.
  intros P H D. pose proof (unpack1_pack _ _ rest P H) as U. pose proof (pack_len _ _ H) as L. destruct b as [|x b]; [simpl in L; lia|].
  rewrite <- app_comm_cons in *. unfold unpack1 in U. rewrite unpack_S in U. unfold mu_try_nil. destruct (classify x); try reflexivity.
  injection U as U _. congruence.
Qed.
Lemma mu_try_nil_nil b rest : pack MNil = Ok b -> mu_try_nil (b ++ rest) = Ok (true, rest).
Proof. intros H. apply Ok_inj in H. subst b. reflexivity. Qed.
Lemma mu_nil_pack b rest : pack MNil = Ok b -> mu_nil (b ++ rest) = Ok rest.
Proof. intros H. apply Ok_inj in H. subst b. reflexivity. Qed.

(** ** lengths *)
Lemma concatM_len {A} (f : A -> res (list N)) l : (forall x b, f x = Ok b -> (1 <= length b)%nat) -> forall b, concatM f l = Ok b -> zlen l <= zlen b.
Proof.
  intros F. induction l as [|x l IH]; intros b H; [unfold zlen; simpl; lia|]. apply concatM_cons in H. destruct H as (p1 & p2 & E1 & E2 & ->).
  pose proof (IH _ E2) as L. pose proof (F _ _ E1) as L1. rewrite zlen_app'. unfold zlen in *. simpl length. lia.
Qed.
Lemma arr_inv l b : pack (MArr l) = Ok b -> exists hd b', arr_head (zlen l) = Ok hd /\ concatM pack l = Ok b' /\ b = hd ++ b'.
Proof.
  intros H. cbn [pack] in H. destruct (arr_head (zlen l)) as [hd|]; [|discriminate]. cbn [rbind] in H.
  destruct (concatM pack l) as [b'|] eqn:E; [|discriminate]. cbn [rbind] in H. apply Ok_inj in H. eauto.
Qed.
Lemma map_inv' d b : pack (MMap d) = Ok b -> exists hd b', map_head (zlen d) = Ok hd /\
  concatM (fun kv => let* k := pack_str (fst kv) in let* v := pack (snd kv) in Ok (k ++ v)) d = Ok b' /\ b = hd ++ b'.
Proof.
  intros H. cbn [pack] in H. destruct (map_head (zlen d)) as [hd|]; [|discriminate]. cbn [rbind] in H.
  destruct (concatM _ d) as [b'|] eqn:E; [|discriminate]. cbn [rbind] in H. apply Ok_inj in H. eauto.
Qed.
Lemma entry_inv (kv : pystr * mobj) b : (let* k := pack_str (fst kv) in let* v := pack (snd kv) in Ok (k ++ v)) = Ok b ->
  exists p q, pack (MStr (fst kv)) = Ok p /\ pack (snd kv) = Ok q /\ b = p ++ q.
Proof.
  intros H. change (pack (MStr (fst kv))) with (pack_str (fst kv)). destruct (pack_str (fst kv)) as [p|]; [|discriminate]. cbn [rbind] in H.
  destruct (pack (snd kv)) as [q|]; [|discriminate]. cbn [rbind] in H. apply Ok_inj in H. eauto.
Qed.
Lemma entries_len d b : concatM (fun kv : pystr * mobj => let* k := pack_str (fst kv) in let* v := pack (snd kv) in Ok (k ++ v)) d = Ok b -> zlen d <= zlen b.
Proof.
  apply concatM_len. intros x p H. apply entry_inv in H. destruct H as (p1 & p2 & H & _ & ->). apply pack_len in H. rewrite app_length. lia.
Qed.
Lemma arr_short l b : pack (MArr l) = Ok b -> short b -> 0 <= zlen l < 2147483648.
Proof.
  intros H S. apply arr_inv in H. destruct H as (hd & b' & _ & E & ->). apply short_r in S. pose proof (concatM_len pack l pack_len b' E). pose proof (zlen_nonneg l). lia.
Qed.
Lemma map_short d b : pack (MMap d) = Ok b -> short b -> 0 <= zlen d < 2147483648.
Proof.
  intros H S. apply map_inv' in H. destruct H as (hd & b' & _ & E & ->). apply short_r in S. pose proof (entries_len _ _ E). pose proof (zlen_nonneg d). lia.
Qed.

(** ** maps of properties and arguments *)
Lemma jread_map_pack conv d : forall js acc b rest, Forall2 (fun ko kj => fst kj = fst ko /\ conv (snd ko) = Ok (snd kj)) d js ->
  NoDup (dkeys (acc ++ js)) -> Forall python_value (map snd d) -> short b ->
  concatM (fun kv => let* k := pack_str (fst kv) in let* v := pack (snd kv) in Ok (k ++ v)) d = Ok b ->
  jread_map conv (length d) acc (b ++ rest) = Ok (acc ++ js, rest).
Proof.
  induction d as [|[k o] d IH]; intros js acc b rest F ND P S H; inversion F as [|? [k' v] ? js' [F1 F2] F3]; subst; cbn [fst snd] in *.
  - apply Ok_inj in H. subst b. rewrite app_nil_r. reflexivity.
  - subst k'. apply concatM_cons in H. destruct H as (p1 & p2 & E1 & E2 & ->). apply entry_inv in E1. destruct E1 as (pk & po & Ek & Eo & ->). cbn [fst snd] in *.
    inversion P; subst. cbn [length jread_map]. rewrite <- !app_assoc in *. rewrite (mu_string_pack k pk _ Ek) by (apply short_l in S; exact S). cbn [rbind].
    rewrite (mu_value_pack o po _ H1 Eo). cbn [rbind]. rewrite F2. cbn [rbind].
    assert (Nk : dget acc k = None).
    { destruct (dget acc k) eqn:G; [|reflexivity]. exfalso. unfold dkeys in ND. rewrite map_app in ND. cbn [map fst] in ND. apply NoDup_remove_2 in ND. apply ND. apply in_or_app. left.
      apply dget_In in G. apply (in_map fst) in G. exact G. }
    rewrite dset_new.
    + rewrite (IH js' (acc ++ [(k, v)]) p2 rest); [rewrite <- app_assoc; reflexivity|assumption|rewrite <- app_assoc; assumption|assumption|do 2 apply short_r in S; exact S|assumption].
    + intros G. apply dmem_In in G. unfold dmem in G. rewrite Nk in G. discriminate.
Qed.
Lemma jprop_ok o v : java_prop o v -> jprop o = Ok v.
Proof.
  intros H. inversion H; subst; try reflexivity; unfold jprop, jint, int_range, long_range in *; f_equal.
  - destruct (Z.ltb_spec i (-2147483648)); [lia|]. destruct (Z.ltb_spec 2147483647 i); [lia|]. reflexivity.
  - destruct (Z.leb_spec (2 ^ 63) i); [lia|]. destruct (Z.ltb_spec i (-2147483648)); [reflexivity|]. destruct (Z.ltb_spec 2147483647 i); [reflexivity|]. lia.
Qed.
Lemma Forall2_dkeys {A B} (R : A -> B -> Prop) (d : dict A) (e : dict B) : Forall2 (fun x y => fst y = fst x /\ R (snd x) (snd y)) d e -> dkeys e = dkeys d.
Proof. induction 1 as [|[k v] [k' w] d e [H _] F IH]; [reflexivity|]. unfold dkeys in *. cbn [map fst] in *. congruence. Qed.
Lemma jread_props_pack d js n b rest : Forall2 (fun ko kj => fst kj = fst ko /\ java_prop (snd ko) (snd kj)) d js -> python_value (MMap d) ->
  pack (MInt (zlen b)) = Ok n -> pack (MMap d) = Ok b -> short b -> jread_props (n ++ b ++ rest) = Ok (js, rest).
Proof.
  intros F P Hn H S. unfold jread_props. rewrite (mu_int_pack _ _ _ Hn) by (pose proof (zlen_nonneg b); unfold int_range; lia). cbn [rbind].
  pose proof (map_short _ _ H S) as R. destruct (map_inv' _ _ H) as (hd & b' & Hh & E & ->). rewrite <- app_assoc. rewrite (mu_map_pack _ _ _ R Hh). cbn [rbind].
  unfold zlen. rewrite Nat2Z.id. inversion P; subst. apply short_r in S. rewrite (jread_map_pack jprop d js [] b' rest); try assumption; [reflexivity| |].
  - eapply Forall2_impl'; [exact F|]. intros x y _ [A B]. split; [assumption|apply jprop_ok; assumption].
  - cbn [app]. rewrite (Forall2_dkeys _ _ _ F). assumption.
Qed.

(** ** schema *)
Lemma half_even_exact q k : 0 <= k -> half_even (q * 2 ^ k) k = q.
Proof.
  intros K. unfold half_even. assert (0 < 2 ^ k) by (apply Z.pow_pos_nonneg; lia). rewrite Z_mod_mult, Z_div_mult by lia. rewrite Z.mul_0_r.
  destruct (Z.compare_spec 0 (2 ^ k)); [lia|reflexivity|lia].
Qed.
Lemma to_float_parts sg e m : sg = 0 \/ sg = 1 -> 0 <= e < 2048 -> 0 <= m < 2 ^ 52 ->
  let v := sg * 2 ^ 63 + e * 2 ^ 52 + m in v / 2 ^ 63 = sg /\ (v / 2 ^ 52) mod 2048 = e /\ v mod 2 ^ 52 = m /\ 0 <= v.
Proof.
  change (2 ^ 63) with 9223372036854775808. change (2 ^ 52) with 4503599627370496. intros Hs He Hm v. subst v. repeat split.
  - symmetry. apply (Z.div_unique _ _ _ (e * 4503599627370496 + m)); lia.
  - assert (D : (sg * 9223372036854775808 + e * 4503599627370496 + m) / 4503599627370496 = sg * 2048 + e).
    { symmetry. apply (Z.div_unique _ _ _ m); lia. }
    rewrite D. symmetry. apply (Z.mod_unique _ _ sg); lia.
  - symmetry. apply (Z.mod_unique _ _ (sg * 2048 + e)); lia.
  - lia.
Qed.
Lemma to_float_single b : is_single b -> to_float b = b.
Proof.
  intros (v & Hv & -> & Hn). pose proof (single_range v Hv) as Rg. unfold to_float. rewrite Z2N.id by lia. unfold single_double in *.
  change (v / 8388608) with (v / 2 ^ 23) in Hn. change (v mod 8388608) with (v mod 2 ^ 23) in Hn.
  pose proof (Z.mod_pos_bound (v / 2 ^ 23) 256 ltac:(lia)) as He. pose proof (Z.mod_pos_bound v (2 ^ 23) ltac:(lia)) as Hm.
  pose proof (Z.div_mod v (2 ^ 31) ltac:(lia)) as D. pose proof (Z.mod_pos_bound v (2 ^ 31) ltac:(lia)) as B.
  assert (Hs : v / 2 ^ 31 = 0 \/ v / 2 ^ 31 = 1) by (assert (0 <= v / 2 ^ 31) by (apply Z.div_pos; lia); assert (v / 2 ^ 31 < 2) by (apply Z.div_lt_upper_bound; lia); lia).
  set (g := v / 2 ^ 31) in *. set (e := (v / 2 ^ 23) mod 256) in *. set (m := v mod 2 ^ 23) in *. cbv zeta in *. clearbody g e m.
  destruct (Z.eqb_spec e 255) as [X|X].
  - rewrite (Hn X) in *. cbn [Z.eqb] in *. destruct (to_float_parts g 2047 0 Hs ltac:(lia) ltac:(lia)) as (P1 & P2 & P3 & P4). rewrite P1, P2, P3. reflexivity.
  - destruct (Z.eqb_spec e 0) as [->|N0].
    + destruct (Z.eqb_spec m 0) as [->|Nm].
      * destruct (to_float_parts g 0 0 Hs ltac:(lia) ltac:(lia)) as (P1 & P2 & P3 & P4). rewrite !Z.mul_0_l, !Z.add_0_r in *. rewrite P1, P2, P3. reflexivity.
      * pose proof (Z.log2_spec m ltac:(lia)) as [L1 L2]. assert (Hk : Z.log2 m < 23) by (apply Z.log2_lt_pow2; lia). pose proof (Z.log2_nonneg m) as Hk0. remember (Z.log2 m) as k eqn:Ek.
        assert (Ep : 2 ^ 52 = 2 ^ k * 2 ^ (52 - k)) by (rewrite <- Z.pow_add_r by lia; f_equal; lia). rewrite Z.pow_succ_r in L2 by lia. assert (P0 : 0 < 2 ^ (52 - k)) by (apply Z.pow_pos_nonneg; lia).
        assert (R : 0 <= (m - 2 ^ k) * 2 ^ (52 - k) < 2 ^ 52) by (rewrite Ep; split; [apply Z.mul_nonneg_nonneg; lia|apply Z.mul_lt_mono_pos_r; lia]).
        destruct (to_float_parts g (k + 874) _ Hs ltac:(lia) R) as (P1 & P2 & P3 & P4). cbv zeta in P1, P2, P3, P4. rewrite P1, P2, P3.
        destruct (Z.eqb_spec (k + 874) 2047); [lia|]. destruct (Z.ltb_spec (k + 874) 873); [lia|].
        replace (Z.max (k + 874 - 1046) (-149)) with (-149) by lia. replace (-149 - (k + 874 - 1075)) with (52 - k) by lia.
        replace (2 ^ 52 + (m - 2 ^ k) * 2 ^ (52 - k)) with (m * 2 ^ (52 - k)) by (rewrite Ep; ring). rewrite half_even_exact by lia.
        destruct (Z.eqb_spec m 0); [contradiction|]. change (2 ^ Z.max (-149) 0) with 1. destruct (Z.leb_spec (2 ^ 128) (m * 1)); [lia|]. rewrite <- Ek.
        f_equal. f_equal. f_equal. f_equal. lia.
    + destruct (to_float_parts g (e + 896) (m * 2 ^ 29) Hs ltac:(lia) ltac:(lia)) as (P1 & P2 & P3 & P4). cbv zeta in P1, P2, P3, P4. rewrite P1, P2, P3.
      destruct (Z.eqb_spec (e + 896) 2047); [lia|]. destruct (Z.ltb_spec (e + 896) 873); [lia|].
      replace (Z.max (e + 896 - 1046) (-149)) with (e - 150) by lia. replace (e - 150 - (e + 896 - 1075)) with 29 by lia.
      replace (2 ^ 52 + m * 2 ^ 29) with ((2 ^ 23 + m) * 2 ^ 29) by lia. rewrite half_even_exact by lia. destruct (Z.eqb_spec (2 ^ 23 + m) 0); [lia|].
      assert (K : Z.log2 (2 ^ 23 + m) = 23) by (apply Z.log2_unique; lia). rewrite K.
      assert (Up : (2 ^ 23 + m) * 2 ^ Z.max (e - 150) 0 < 2 ^ 128).
      { assert (2 ^ Z.max (e - 150) 0 <= 2 ^ 104) by (apply Z.pow_le_mono_r; lia). assert (0 < 2 ^ Z.max (e - 150) 0) by (apply Z.pow_pos_nonneg; lia).
        apply Z.le_lt_trans with ((2 ^ 23 + m) * 2 ^ 104); [apply Z.mul_le_mono_nonneg_l; lia|]. lia. }
      destruct (Z.leb_spec (2 ^ 128) ((2 ^ 23 + m) * 2 ^ Z.max (e - 150) 0)); [lia|]. f_equal. change (2 ^ (52 - 23)) with (2 ^ 29). f_equal; [|f_equal; lia]. f_equal. f_equal. lia.
Qed.
Lemma jarg_ok v o j : java_option v j -> value_obj v = Ok o -> jarg o = Ok j.
Proof.
  intros H E. inversion H; subst; apply Ok_inj in E; subst o; cbn [jarg]; try reflexivity; try (apply jprop_ok; constructor; assumption).
  rewrite to_float_single by assumption. reflexivity.
Qed.

Definition jfield_reads (ef : efield) (ft : pystr * jdtype) : Prop :=
  fst ft = ef_name ef /\
  match ef_args ef with
  | None => jplain (ef_type ef) = Ok (snd ft)
  | Some a => ty_name (snd ft) = jname_from (ef_type ef) /\ Forall2 (fun ko kj => fst kj = fst ko /\ jarg (snd ko) = Ok (snd kj)) a (ty_args (snd ft)) /\ python_value (MMap a)
  end.
Lemma jread_field_pack ef ft b rest : pack_all (field_objs ef) = Ok b -> short b -> jfield_reads ef ft -> jread_field (b ++ rest) = Ok (ft, rest).
Proof.
  destruct ft as [f jt]. unfold jfield_reads, field_objs, jread_field. cbn [fst snd]. intros H S [-> R]. destruct (ef_args ef) as [a|].
  - destruct R as (Rn & Ra & Pv). apply pack_all_cons in H. destruct H as (p1 & q1 & E1 & H & ->). apply pack_all_cons in H. destruct H as (p2 & q2 & E2 & H & ->).
    apply pack_all_cons in H. destruct H as (p3 & q3 & E3 & H & ->). apply pack_all_cons in H. destruct H as (p4 & q4 & E4 & H & ->). apply Ok_inj in H. subst q4.
    rewrite app_nil_r in *. rewrite <- !app_assoc. rewrite (mu_string_pack _ _ _ E1) by (apply short_l in S; exact S). cbn [rbind]. apply short_r in S.
    rewrite (mu_bool_pack _ _ _ E2). cbn [rbind]. apply short_r in S. rewrite (mu_string_pack _ _ _ E3) by (apply short_l in S; exact S). cbn [rbind]. apply short_r in S.
    pose proof (map_short _ _ E4 S) as R. destruct (map_inv' _ _ E4) as (hd & b' & Hh & E & ->). rewrite <- app_assoc. rewrite (mu_map_pack _ _ _ R Hh). cbn [rbind].
    unfold zlen. rewrite Nat2Z.id. inversion Pv; subst. apply short_r in S. rewrite (jread_map_pack jarg a (ty_args jt) [] b' rest); try assumption.
    + cbn [rbind]. rewrite <- Rn. destruct jt; reflexivity.
    + cbn [app]. rewrite (Forall2_dkeys (fun o j => jarg o = Ok j) _ _ Ra). assumption.
  - apply pack_all_cons in H. destruct H as (p1 & q1 & E1 & H & ->). apply pack_all_cons in H. destruct H as (p2 & q2 & E2 & H & ->).
    apply pack_all_cons in H. destruct H as (p3 & q3 & E3 & H & ->). apply Ok_inj in H. subst q3.
    rewrite app_nil_r in *. rewrite <- !app_assoc. rewrite (mu_string_pack _ _ _ E1) by (apply short_l in S; exact S). cbn [rbind]. apply short_r in S.
    rewrite (mu_bool_pack _ _ _ E2). cbn [rbind]. apply short_r in S. rewrite (mu_string_pack _ _ _ E3) by exact S. cbn [rbind]. rewrite R. reflexivity.
Qed.
Lemma not_in_dmem {A} (acc : dict A) k : ~ In k (dkeys acc) -> dmem acc k = false.
Proof. intros H. destruct (dmem acc k) eqn:E; [|reflexivity]. exfalso. apply H. apply dmem_In. assumption. Qed.
Lemma jread_fields_pack fs : forall fts b rest acc, pack_all (flat_map field_objs fs) = Ok b -> short b -> Forall2 jfield_reads fs fts -> NoDup (dkeys (acc ++ fts)) ->
  jread_fields (length fs) acc (b ++ rest) = Ok (acc ++ fts, rest).
Proof.
  induction fs as [|ef fs IH]; intros fts b rest acc H S F ND; inversion F as [|? ft ? fts' F1 F2]; subst; cbn [flat_map length jread_fields] in *.
  - apply Ok_inj in H. subst b. rewrite app_nil_r. reflexivity.
  - apply concatM_app in H. destruct H as (p1 & p2 & E1 & E2 & ->). rewrite <- app_assoc. rewrite (jread_field_pack ef ft p1 _ E1 (short_l _ _ S) F1). cbn [rbind].
    rewrite not_in_dmem.
    + rewrite (IH fts' p2 rest (acc ++ [ft]) E2 (short_r _ _ S) F2); [rewrite <- app_assoc; reflexivity|rewrite <- app_assoc; exact ND].
    + unfold dkeys in ND. rewrite map_app in ND. cbn [map] in ND. apply NoDup_remove_2 in ND. intros I. apply ND. apply in_or_app. left. exact I.
Qed.
Lemma jread_names_pack l : forall b rest, pack_all (map MStr l) = Ok b -> short b -> jread_names (length l) (b ++ rest) = Ok (l, rest).
Proof.
  induction l as [|x l IH]; intros b rest H S; cbn [map length jread_names] in *; [apply Ok_inj in H; subst b; reflexivity|].
  apply pack_all_cons in H. destruct H as (p1 & p2 & E1 & E2 & ->). rewrite <- app_assoc, (mu_string_pack _ _ _ E1 (short_l _ _ S)). cbn [rbind].
  rewrite (IH _ _ E2 (short_r _ _ S)). reflexivity.
Qed.
Definition jlayer_reads (el : elayer) (kf : pystr * dict jdtype) : Prop :=
  fst kf = el_name el /\ Forall2 jfield_reads (el_fields el) (snd kf) /\ NoDup (dkeys (snd kf)).
Lemma fields_len fs b : pack_all (flat_map field_objs fs) = Ok b -> zlen fs <= zlen b.
Proof.
  revert b. induction fs as [|ef fs IH]; intros b H; [pose proof (zlen_nonneg b); unfold zlen at 1; simpl; lia|]. cbn [flat_map] in H. apply concatM_app in H. destruct H as (p1 & p2 & E1 & E2 & ->).
  pose proof (IH _ E2) as L. assert (1 <= zlen p1).
  { unfold field_objs in E1. destruct (ef_args ef); apply pack_all_cons in E1; destruct E1 as (a & b & Ea & _ & ->); apply pack_len in Ea; rewrite zlen_app'; pose proof (zlen_nonneg b); unfold zlen at 1; lia. }
  rewrite zlen_app'. unfold zlen in *. simpl length. lia.
Qed.
Lemma jread_schemas_pack ls : forall sch b rest, pack_all (schema_objs ls) = Ok b -> short b -> Forall2 jlayer_reads ls sch ->
  jread_schemas (map el_name ls) (b ++ rest) = Ok (sch, rest).
Proof.
  induction ls as [|el ls IH]; intros sch b rest H S F; inversion F as [|? [k fts] ? sch' (F1 & F2 & F3) F4]; subst; cbn [map jread_schemas fst snd] in *.
  - apply Ok_inj in H. subst b. reflexivity.
  - unfold schema_objs in H. cbn [flat_map] in H. rewrite <- app_comm_cons in H. apply pack_all_cons in H. destruct H as (p1 & q1 & E1 & H & ->). fold (schema_objs ls) in H.
    apply concatM_app in H. destruct H as (p2 & p3 & E2 & E3 & ->). rewrite <- !app_assoc. pose proof (fields_len _ _ E2) as FL. pose proof (zlen_nonneg (el_fields el)) as FN.
    pose proof (short_l _ _ (short_r _ _ S)) as S2. pose proof (short_r _ _ (short_r _ _ S)) as S3.
    rewrite (mu_int_pack _ _ _ E1) by (unfold int_range; lia). cbn [rbind]. unfold zlen at 1. rewrite Nat2Z.id.
    rewrite (jread_fields_pack (el_fields el) fts p2 _ [] E2 S2 F2) by exact F3. cbn [rbind app]. rewrite (IH sch' p3 rest E3 S3 F4). cbn [rbind]. subst k. reflexivity.
Qed.
Lemma jread_schema_pack ls sch b rest : pack_all (MArr (map (fun l => MStr (el_name l)) ls) :: schema_objs ls) = Ok b -> short b ->
  Forall2 jlayer_reads ls sch -> NoDup (map el_name ls) -> jread_schema (b ++ rest) = Ok (sch, rest).
Proof.
  intros H S F ND. apply pack_all_cons in H. destruct H as (p1 & p2 & E1 & E2 & ->). rewrite <- app_assoc. unfold jread_schema.
  pose proof (short_l _ _ S) as S1. pose proof (arr_short _ _ E1 S1) as R. destruct (arr_inv _ _ E1) as (hd & b' & Hh & E & ->). rewrite <- app_assoc.
  rewrite (mu_array_pack _ _ _ R Hh). cbn [rbind]. unfold zlen. rewrite Nat2Z.id, map_length. rewrite <- (map_length el_name ls).
  replace (map (fun l => MStr (el_name l)) ls) with (map MStr (map el_name ls)) in E by (rewrite map_map; reflexivity).
  rewrite (jread_names_pack _ _ _ E (short_r _ _ S1)). cbn [rbind]. rewrite (names_nodup_true _ ND). apply jread_schemas_pack; [assumption|exact (short_r _ _ S)|assumption].
Qed.

(** ** texts *)
Fixpoint unit_offsets (pos : Z) (parts : list pystr) : list Z :=
  match parts with [] => [] | x :: r => (pos + zlen (utf16 x)) :: unit_offsets (pos + zlen (utf16 x)) r end.
Lemma jread_parts_pack l : forall sb offs b rest, pack_all (map MStr l) = Ok b -> short b ->
  jread_parts (length l) sb offs (b ++ rest) = Ok (sb ++ utf16 (List.concat l), offs ++ unit_offsets (zlen sb) l, rest).
Proof.
  induction l as [|x l IH]; intros sb offs b rest H S; cbn [map length jread_parts List.concat unit_offsets] in *; [apply Ok_inj in H; subst b; rewrite !app_nil_r; reflexivity|].
  apply pack_all_cons in H. destruct H as (p1 & p2 & E1 & E2 & ->). rewrite <- app_assoc, (mu_string_pack _ _ _ E1 (short_l _ _ S)). cbn [rbind].
  rewrite (IH _ _ _ _ E2 (short_r _ _ S)). rewrite utf16_app, <- !app_assoc, zlen_app'. reflexivity.
Qed.
(** what a text is read as *)
Definition jentry (kt : pystr * list pystr) : pystr * (list N * list Z) := (fst kt, (utf16 (List.concat (snd kt)), 0 :: unit_offsets 0 (snd kt))).
Lemma jread_texts_n_pack ts : forall acc b rest,
  concatM (fun kv => let* k := pack_str (fst kv) in let* v := pack (snd kv) in Ok (k ++ v)) (map (fun kt => (fst kt, MArr (map MStr (snd kt)))) ts) = Ok b -> short b ->
  NoDup (dkeys acc ++ dkeys ts) -> jread_texts_n (length ts) acc (b ++ rest) = Ok (acc ++ map jentry ts, rest).
Proof.
  induction ts as [|[k parts] ts IH]; intros acc b rest H S ND; cbn [map length jread_texts_n] in *; [apply Ok_inj in H; subst b; rewrite app_nil_r; reflexivity|].
  apply concatM_cons in H. destruct H as (q1 & q2 & E1 & E2 & ->). apply entry_inv in E1. destruct E1 as (p1 & p2 & Ek & Ev & ->). cbn [fst snd] in *.
  pose proof (short_l _ _ (short_l _ _ S)) as S1. pose proof (short_r _ _ (short_l _ _ S)) as S2. pose proof (short_r _ _ S) as S3. rewrite <- !app_assoc.
  rewrite (mu_string_pack _ _ _ Ek S1). cbn [rbind]. pose proof (arr_short _ _ Ev S2) as R. destruct (arr_inv _ _ Ev) as (hd & b' & Hh & E & ->). rewrite <- app_assoc.
  rewrite (mu_array_pack _ _ _ R Hh). cbn [rbind]. unfold zlen at 1. rewrite Nat2Z.id, map_length. rewrite (jread_parts_pack parts [] [0] b' _ E (short_r _ _ S2)). cbn [rbind].
  rewrite not_in_dmem.
  - rewrite (IH _ q2 rest E2 S3); [rewrite <- app_assoc; reflexivity|]. unfold dkeys in *. rewrite map_app. cbn [map fst] in *. rewrite <- app_assoc. exact ND.
  - unfold dkeys in *. cbn [map fst] in ND. apply NoDup_remove_2 in ND. intros I. apply ND. apply in_or_app. left. exact I.
Qed.
Lemma jread_texts_pack ts n b rest : NoDup (dkeys ts) -> pack (MInt (zlen b)) = Ok n -> pack (texts_obj ts) = Ok b -> short b -> jread_texts (n ++ b ++ rest) = Ok (map jentry ts, rest).
Proof.
  intros ND Hn H S. unfold jread_texts. rewrite (mu_int_pack _ _ _ Hn) by (pose proof (zlen_nonneg b); unfold int_range; lia). cbn [rbind].
  unfold texts_obj in H. pose proof (map_short _ _ H S) as R. destruct (map_inv' _ _ H) as (hd & b' & Hh & E & ->). rewrite <- app_assoc. rewrite (mu_map_pack _ _ _ R Hh). cbn [rbind].
  unfold zlen. rewrite Nat2Z.id, map_length. apply (jread_texts_n_pack ts [] b' rest E (short_r _ _ S)). exact ND.
Qed.
(** the unit offsets are the positions in units of the offsets *)
Lemma unit_offsets_seg l : forall pre, unit_offsets (zlen (utf16 pre)) l = map (upos (pre ++ List.concat l)) (tl (seg_offsets (zlen pre) l)).
Proof.
  induction l as [|x l IH]; intros pre; [reflexivity|]. cbn [unit_offsets seg_offsets tl List.concat].
  assert (E : seg_offsets (zlen pre + zlen x) l = (zlen pre + zlen x) :: tl (seg_offsets (zlen pre + zlen x) l)) by (destruct l; reflexivity).
  rewrite E. cbn [map]. specialize (IH (pre ++ x)). rewrite utf16_app, !zlen_app' in IH. rewrite <- zlen_app' in IH. rewrite zlen_app' in IH. rewrite <- app_assoc in IH.
  assert (U : upos (pre ++ x ++ List.concat l) (zlen pre + zlen x) = zlen (utf16 pre) + zlen (utf16 x)).
  { rewrite upos_in by (rewrite !zlen_app'; pose proof (zlen_nonneg pre); pose proof (zlen_nonneg x); pose proof (zlen_nonneg (List.concat l)); lia).
    replace (Z.to_nat (zlen pre + zlen x)) with (length (pre ++ x)) by (rewrite <- zlen_app'; unfold zlen; lia).
    rewrite app_assoc, <- zlen_app', <- utf16_app, firstn_app, firstn_all, Nat.sub_diag, firstn_O, app_nil_r. reflexivity. }
  rewrite U. f_equal. rewrite <- IH. reflexivity.
Qed.
Lemma jentry_offsets k x q : Forall (fun o => 0 <= o <= zlen x) q ->
  jentry (k, text_compile x (sorted_offsets x q)) = (k, (utf16 x, map (upos x) (sorted_offsets x q))).
Proof.
  intros F. destruct (segmentation x q F) as [S1 S2]. unfold jentry. cbn [fst snd]. unfold join_segs in S1. rewrite S1.
  pose proof (unit_offsets_seg (text_compile x (sorted_offsets x q)) []) as U. change (zlen (utf16 [])) with 0 in U. change (zlen (@nil N)) with 0 in U. cbn [app] in U. rewrite U, S1, S2.
  assert (H : sorted_offsets x q = 0 :: tl (sorted_offsets x q)) by (rewrite <- S2; destruct (text_compile x (sorted_offsets x q)); reflexivity).
  rewrite H at 2. cbn [map]. rewrite upos_0. reflexivity.
Qed.
