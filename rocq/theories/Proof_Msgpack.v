(** MessagePack: round trip, minimal length, what can be packed. *)
From Verif Require Import PyBase PyBaseFacts Model_Msgpack Spec_Msgpack.
Local Open Scope Z_scope.

(** ** induction over nested objects *)
Section Ind.
Variable P : mobj -> Prop.
Hypothesis Hnil : P MNil.
Hypothesis Hbool : forall b, P (MBool b).
Hypothesis Hint : forall i, P (MInt i).
Hypothesis Hfloat : forall b, P (MFloat b).
Hypothesis Hstr : forall x, P (MStr x).
Hypothesis Hbin : forall x, P (MBin x).
Hypothesis Harr : forall l, Forall P l -> P (MArr l).
Hypothesis Hmap : forall d, Forall P (map snd d) -> P (MMap d).
Fixpoint mobj_rect' (o : mobj) : P o :=
  match o with
  | MNil => Hnil | MBool b => Hbool b | MInt i => Hint i | MFloat b => Hfloat b | MStr x => Hstr x | MBin x => Hbin x
  | MArr l => Harr l ((fix go (l : list mobj) : Forall P l :=
      match l with [] => Forall_nil P | x :: r => Forall_cons x (mobj_rect' x) (go r) end) l)
  | MMap d => Hmap d ((fix go (d : list (pystr * mobj)) : Forall P (map snd d) :=
      match d with [] => Forall_nil P | x :: r => Forall_cons (snd x) (mobj_rect' (snd x)) (go r) end) d)
  end.
End Ind.

(** ** big-endian numbers *)
Lemma be_length k : forall v, length (be k v) = k.
Proof. induction k as [|k IH]; intros v; simpl; [reflexivity|]. rewrite app_length, IH. simpl. lia. Qed.
Lemma be_bytes k : forall v, bytes (be k v).
Proof.
  induction k as [|k IH]; intros v; simpl; [constructor|]. apply Forall_app. split; [apply IH|].
  constructor; [|constructor]. pose proof (Z.mod_pos_bound v 256 ltac:(lia)). lia.
Qed.
Lemma unbe_snoc a b : unbe (a ++ [b]) = unbe a * 256 + Z.of_N b.
Proof. unfold unbe. rewrite fold_left_app. reflexivity. Qed.
Lemma unbe_be k : forall v, 0 <= v < 256 ^ Z.of_nat k -> unbe (be k v) = v.
Proof.
  induction k as [|k IH]; intros v Hv; [change (256 ^ Z.of_nat 0) with 1 in Hv; cbn; lia|].
  cbn [be]. rewrite unbe_snoc. rewrite Nat2Z.inj_succ, Z.pow_succ_r in Hv by lia.
  rewrite IH by (split; [apply Z.div_pos; lia|apply Z.div_lt_upper_bound; lia]).
  pose proof (Z.mod_pos_bound v 256 ltac:(lia)). rewrite Z2N.id by lia. pose proof (Z.div_mod v 256 ltac:(lia)). lia.
Qed.
Lemma unbe_range bs : bytes bs -> 0 <= unbe bs < 256 ^ zlen bs.
Proof.
  unfold bytes. induction bs as [|b bs IH] using rev_ind; intros H; [change (0 <= 0 < 256 ^ 0); lia|].
  apply Forall_app in H. destruct H as [H1 H2]. inversion H2 as [|? ? Hb _]. specialize (IH H1).
  rewrite unbe_snoc. unfold zlen in *. rewrite app_length. simpl length. rewrite Nat2Z.inj_add. change (Z.of_nat 1) with 1.
  rewrite Z.pow_add_r by lia. lia.
Qed.
Lemma take_app k a b : zlen a = k -> take k (a ++ b) = Ok (a, b).
Proof.
  intros <-. unfold take, zlen. rewrite app_length. destruct (Z.ltb_spec (Z.of_nat (length a + length b)) (Z.of_nat (length a))); [lia|].
  rewrite Nat2Z.id, firstn_app, Nat.sub_diag, firstn_all, firstn_O, app_nil_r, skipn_app, Nat.sub_diag, skipn_all. reflexivity.
Qed.
Lemma take_ok k bs a b : take k bs = Ok (a, b) -> bs = a ++ b /\ (0 <= k -> zlen a = k).
Proof.
  unfold take. destruct (Z.ltb_spec (zlen bs) k); [discriminate|]. intros [= <- <-].
  split; [symmetry; apply firstn_skipn|]. intros Hk. unfold zlen in *. rewrite firstn_length. lia.
Qed.
Lemma read_be k v rest : 0 <= v < 256 ^ Z.of_nat k -> read_uint (Z.of_nat k) (be k v ++ rest) = Ok (v, rest).
Proof.
  intros Hv. unfold read_uint. rewrite take_app by (unfold zlen; rewrite be_length; reflexivity). cbn [rbind]. rewrite unbe_be by assumption. reflexivity.
Qed.
Lemma read_uint_ok k bs v r : 0 <= k -> bytes bs -> read_uint k bs = Ok (v, r) ->
  exists a, bs = a ++ r /\ zlen a = k /\ 0 <= v < 256 ^ k.
Proof.
  intros Hk Hb. unfold read_uint. destruct (take k bs) as [[a b]|] eqn:E; [|discriminate]. cbn [rbind]. intros [= <- <-].
  apply take_ok in E. destruct E as [-> Hl]. specialize (Hl Hk). exists a. split; [reflexivity|]. split; [assumption|].
  rewrite <- Hl. apply unbe_range. apply Forall_app in Hb. apply Hb.
Qed.

(** ** UTF-8 *)
Lemma cont_ok n : (n < 64 -> is_cont (0x80 + n) = true)%N.
Proof. intros H. unfold is_cont. apply andb_true_iff. rewrite N.leb_le, N.ltb_lt. lia. Qed.
Lemma dec2 b0 b1 rest c : (0xC0 <= b0 < 0xE0)%N -> is_cont b1 = true -> c = ((b0 - 0xC0) * 64 + (b1 - 0x80))%N -> (0x80 <= c)%N ->
  utf8_decode (b0 :: b1 :: rest) = (let* x := utf8_decode rest in Ok (c :: x)).
Proof.
  intros H0 H1 -> Hc. cbn [utf8_decode]. destruct (N.ltb_spec b0 0x80); [lia|]. destruct (N.ltb_spec b0 0xC0); [lia|].
  destruct (N.ltb_spec b0 0xE0); [|lia]. rewrite H1. apply N.leb_le in Hc. rewrite Hc. reflexivity.
Qed.
Lemma dec3 b0 b1 b2 rest c : (0xE0 <= b0 < 0xF0)%N -> is_cont b1 = true -> is_cont b2 = true ->
  c = ((b0 - 0xE0) * 4096 + (b1 - 0x80) * 64 + (b2 - 0x80))%N -> (0x800 <= c)%N -> is_surrogate c = false ->
  utf8_decode (b0 :: b1 :: b2 :: rest) = (let* x := utf8_decode rest in Ok (c :: x)).
Proof.
  intros H0 H1 H2 -> Hc Hs. cbn [utf8_decode]. destruct (N.ltb_spec b0 0x80); [lia|]. destruct (N.ltb_spec b0 0xC0); [lia|].
  destruct (N.ltb_spec b0 0xE0); [lia|]. destruct (N.ltb_spec b0 0xF0); [|lia]. rewrite H1, H2, Hs. apply N.leb_le in Hc. rewrite Hc. reflexivity.
Qed.
Lemma dec4 b0 b1 b2 b3 rest c : (0xF0 <= b0 < 0xF8)%N -> is_cont b1 = true -> is_cont b2 = true -> is_cont b3 = true ->
  c = ((b0 - 0xF0) * 262144 + (b1 - 0x80) * 4096 + (b2 - 0x80) * 64 + (b3 - 0x80))%N -> (0x10000 <= c < 0x110000)%N ->
  utf8_decode (b0 :: b1 :: b2 :: b3 :: rest) = (let* x := utf8_decode rest in Ok (c :: x)).
Proof.
  intros H0 H1 H2 H3 -> [Hc Hc']. cbn [utf8_decode]. destruct (N.ltb_spec b0 0x80); [lia|]. destruct (N.ltb_spec b0 0xC0); [lia|].
  destruct (N.ltb_spec b0 0xE0); [lia|]. destruct (N.ltb_spec b0 0xF0); [lia|]. destruct (N.ltb_spec b0 0xF8); [|lia].
  rewrite H1, H2, H3. apply N.leb_le in Hc. apply N.ltb_lt in Hc'. rewrite Hc, Hc'. reflexivity.
Qed.
Lemma Ok_inj {A} (a b : A) : Ok a = Ok b -> a = b.
Proof. congruence. Qed.
Lemma addsub a b : (a + b - a)%N = b.
Proof. lia. Qed.
Lemma utf8_char_dec c a : utf8_char c = Ok a -> forall rest, utf8_decode (a ++ rest) = (let* x := utf8_decode rest in Ok (c :: x)).
Proof.
  unfold utf8_char. intros H rest.
  destruct (N.ltb_spec c 0x80) as [L1|L1].
  { apply Ok_inj in H. subst a. simpl app. cbn [utf8_decode]. apply N.ltb_lt in L1. rewrite L1. reflexivity. }
  pose proof (N.div_mod c 64 ltac:(lia)) as D. pose proof (N.mod_lt c 64 ltac:(lia)) as M.
  pose proof (N.div_mod (c / 64) 64 ltac:(lia)) as D2. pose proof (N.mod_lt (c / 64) 64 ltac:(lia)) as M2.
  pose proof (N.div_mod (c / 4096) 64 ltac:(lia)) as D3. pose proof (N.mod_lt (c / 4096) 64 ltac:(lia)) as M3.
  rewrite N.div_div in D2, D3 by lia. change (64 * 64)%N with 4096%N in D2. change (4096 * 64)%N with 262144%N in D3.
  remember (c mod 64)%N as m0 eqn:E0. remember ((c / 64) mod 64)%N as m1 eqn:E1. remember ((c / 4096) mod 64)%N as m2 eqn:E2.
  remember (c / 64)%N as q1 eqn:F1. remember (c / 4096)%N as q2 eqn:F2. remember (c / 262144)%N as q3 eqn:F3. clear E0 E1 E2 F1 F2 F3.
  destruct (N.ltb_spec c 0x800).
  { apply Ok_inj in H. subst a. change (([0xC0 + q1; 0x80 + m0] ++ rest)%N) with ((0xC0 + q1) :: (0x80 + m0) :: rest)%N.
    apply dec2; [|apply cont_ok; assumption|rewrite !addsub; lia|lia]. lia. }
  destruct (is_surrogate c) eqn:Es; [discriminate|].
  destruct (N.ltb_spec c 0x10000).
  { apply Ok_inj in H. subst a.
    change (([0xE0 + q2; 0x80 + m1; 0x80 + m0] ++ rest)%N) with ((0xE0 + q2) :: (0x80 + m1) :: (0x80 + m0) :: rest)%N.
    apply dec3; [|apply cont_ok; assumption|apply cont_ok; assumption|rewrite !addsub; lia|lia|assumption]. lia. }
  destruct (N.ltb_spec c 0x110000); [|discriminate]. apply Ok_inj in H. subst a.
  change (([0xF0 + q3; 0x80 + m2; 0x80 + m1; 0x80 + m0] ++ rest)%N)
    with ((0xF0 + q3) :: (0x80 + m2) :: (0x80 + m1) :: (0x80 + m0) :: rest)%N.
  apply dec4; [|apply cont_ok; assumption|apply cont_ok; assumption|apply cont_ok; assumption|rewrite !addsub; lia|lia]. lia.
Qed.
Lemma utf8_round x : forall b, utf8_encode x = Ok b -> utf8_decode b = Ok x.
Proof.
  induction x as [|c x IH]; simpl; intros b H; [injection H as <-; reflexivity|].
  destruct (utf8_char c) as [a|] eqn:Ea; [|discriminate]. cbn [rbind] in H. destruct (utf8_encode x) as [b'|]; [|discriminate].
  cbn [rbind] in H. injection H as <-. rewrite (utf8_char_dec c a Ea), (IH b' eq_refl). reflexivity.
Qed.
(** decoding is strict: re-encoding gives the same bytes *)
Lemma is_cont_iff b : is_cont b = true <-> (0x80 <= b < 0xC0)%N.
Proof. unfold is_cont. rewrite andb_true_iff, N.leb_le, N.ltb_lt. reflexivity. Qed.
Lemma split64 q m : (m < 64)%N -> ((q * 64 + m) / 64 = q /\ (q * 64 + m) mod 64 = m)%N.
Proof.
  intros H. split.
  - rewrite N.div_add_l by lia. rewrite N.div_small by assumption. lia.
  - rewrite N.add_comm, N.mod_add by lia. apply N.mod_small. assumption.
Qed.
Lemma utf8_strict n : forall bs x, (length bs <= n)%nat -> utf8_decode bs = Ok x -> utf8_encode x = Ok bs.
Proof.
  induction n as [|n IH]; intros bs x Hl H.
  { destruct bs; [|simpl in Hl; lia]. injection H as <-. reflexivity. }
  destruct bs as [|b0 r]; [injection H as <-; reflexivity|]. cbn [utf8_decode] in H. simpl length in Hl.
  destruct (N.ltb_spec b0 0x80).
  { destruct (utf8_decode r) as [y|] eqn:E; [|discriminate]. injection H as <-. simpl. unfold utf8_char.
    destruct (N.ltb_spec b0 0x80); [|lia]. cbn [rbind]. rewrite (IH r y) by (auto; lia). reflexivity. }
  destruct (N.ltb_spec b0 0xC0); [discriminate|].
  destruct (N.ltb_spec b0 0xE0).
  { destruct r as [|b1 r]; [discriminate|]. simpl length in Hl.
    destruct (is_cont b1) eqn:C1; [|discriminate]. apply is_cont_iff in C1. cbn [andb] in H.
    match type of H with (if N.leb _ ?c then _ else _) = _ => remember c as cc eqn:Hc end.
    destruct (N.leb_spec 0x80 cc); [|discriminate]. destruct (utf8_decode r) as [y|] eqn:E; [|discriminate]. injection H as <-.
    destruct (split64 (b0 - 0xC0) (b1 - 0x80) ltac:(lia)) as [S1 S2]. rewrite <- Hc in S1, S2.
    simpl. unfold utf8_char. destruct (N.ltb_spec cc 0x80); [lia|]. destruct (N.ltb_spec cc 0x800); [|lia].
    cbn [rbind]. rewrite (IH r y) by (auto; lia). rewrite S1, S2. cbn [rbind app]. repeat f_equal; lia. }
  destruct (N.ltb_spec b0 0xF0).
  { destruct r as [|b1 [|b2 r]]; try discriminate. simpl length in Hl.
    destruct (is_cont b1) eqn:C1; [|discriminate]. apply is_cont_iff in C1. destruct (is_cont b2) eqn:C2; [|discriminate]. apply is_cont_iff in C2. cbn [andb] in H.
    match type of H with (if N.leb _ ?c && _ then _ else _) = _ => remember c as cc eqn:Hc end.
    destruct (N.leb_spec 0x800 cc); [|discriminate]. destruct (is_surrogate cc) eqn:Es; [discriminate|]. cbn [andb negb] in H.
    destruct (utf8_decode r) as [y|] eqn:E; [|discriminate]. injection H as <-.
    destruct (split64 ((b0 - 0xE0) * 64 + (b1 - 0x80)) (b2 - 0x80) ltac:(lia)) as [S1 S2].
    replace (((b0 - 0xE0) * 64 + (b1 - 0x80)) * 64 + (b2 - 0x80))%N with cc in S1, S2 by lia.
    destruct (split64 (b0 - 0xE0) (b1 - 0x80) ltac:(lia)) as [S3 S4].
    assert (S5 : (cc / 4096 = b0 - 0xE0)%N) by (change 4096%N with (64 * 64)%N; rewrite <- N.div_div by lia; rewrite S1; exact S3).
    simpl. unfold utf8_char. destruct (N.ltb_spec cc 0x80); [lia|]. destruct (N.ltb_spec cc 0x800); [lia|]. rewrite Es.
    destruct (N.ltb_spec cc 0x10000); [|lia].
    cbn [rbind]. rewrite (IH r y) by (auto; lia). rewrite S1, S2, S4, S5. cbn [rbind app]. repeat f_equal; lia. }
  destruct (N.ltb_spec b0 0xF8); [|discriminate].
  destruct r as [|b1 [|b2 [|b3 r]]]; try discriminate. simpl length in Hl.
  destruct (is_cont b1) eqn:C1; [|discriminate]. apply is_cont_iff in C1. destruct (is_cont b2) eqn:C2; [|discriminate]. apply is_cont_iff in C2.
  destruct (is_cont b3) eqn:C3; [|discriminate]. apply is_cont_iff in C3. cbn [andb] in H.
  match type of H with (if N.leb _ ?c && _ then _ else _) = _ => remember c as cc eqn:Hc end.
  destruct (N.leb_spec 0x10000 cc); [|discriminate]. destruct (N.ltb_spec cc 0x110000); [|discriminate]. cbn [andb] in H.
  destruct (utf8_decode r) as [y|] eqn:E; [|discriminate]. injection H as <-.
  destruct (split64 ((b0 - 0xF0) * 4096 + (b1 - 0x80) * 64 + (b2 - 0x80)) (b3 - 0x80) ltac:(lia)) as [S1 S2].
  replace (((b0 - 0xF0) * 4096 + (b1 - 0x80) * 64 + (b2 - 0x80)) * 64 + (b3 - 0x80))%N with cc in S1, S2 by lia.
  destruct (split64 ((b0 - 0xF0) * 64 + (b1 - 0x80)) (b2 - 0x80) ltac:(lia)) as [S3 S4].
  replace (((b0 - 0xF0) * 64 + (b1 - 0x80)) * 64 + (b2 - 0x80))%N with ((b0 - 0xF0) * 4096 + (b1 - 0x80) * 64 + (b2 - 0x80))%N in S3, S4 by lia.
  destruct (split64 (b0 - 0xF0) (b1 - 0x80) ltac:(lia)) as [S5 S6].
  assert (S7 : (cc / 4096 = (b0 - 0xF0) * 64 + (b1 - 0x80))%N) by (change 4096%N with (64 * 64)%N; rewrite <- N.div_div by lia; rewrite S1; exact S3).
  assert (S8 : (cc / 262144 = b0 - 0xF0)%N) by (change 262144%N with (4096 * 64)%N; rewrite <- N.div_div by lia; rewrite S7; exact S5).
  simpl. unfold utf8_char. destruct (N.ltb_spec cc 0x80); [lia|]. destruct (N.ltb_spec cc 0x800); [lia|].
  assert (Es : is_surrogate cc = false) by (unfold is_surrogate; apply andb_false_iff; right; apply N.leb_gt; lia). rewrite Es.
  destruct (N.ltb_spec cc 0x10000); [lia|]. destruct (N.ltb_spec cc 0x110000); [|lia].
  cbn [rbind]. rewrite (IH r y) by (auto; lia). rewrite S1, S2, S4, S7, S6, S8. cbn [rbind app]. repeat f_equal; lia.
Qed.

(** ** heads *)
Lemma classify_below z : 0 <= z < 0x80 -> classify (Z.to_N z) = TgInt z.
Proof. intros H. unfold classify. rewrite Z2N.id by lia. destruct (Z.ltb_spec z 0x80); [reflexivity|lia]. Qed.
Lemma classify_map n : 0 <= n < 16 -> classify (Z.to_N (0x80 + n)) = TgMap n.
Proof.
  intros H. unfold classify. rewrite Z2N.id by lia. destruct (Z.ltb_spec (0x80 + n) 0x80); [lia|].
  destruct (Z.ltb_spec (0x80 + n) 0x90); [|lia]. f_equal. lia.
Qed.
Lemma classify_arr n : 0 <= n < 16 -> classify (Z.to_N (0x90 + n)) = TgArr n.
Proof.
  intros H. unfold classify. rewrite Z2N.id by lia. destruct (Z.ltb_spec (0x90 + n) 0x80); [lia|].
  destruct (Z.ltb_spec (0x90 + n) 0x90); [lia|]. destruct (Z.ltb_spec (0x90 + n) 0xA0); [|lia]. f_equal. lia.
Qed.
Lemma classify_str n : 0 <= n < 32 -> classify (Z.to_N (0xA0 + n)) = TgStr n.
Proof.
  intros H. unfold classify. rewrite Z2N.id by lia. destruct (Z.ltb_spec (0xA0 + n) 0x80); [lia|].
  destruct (Z.ltb_spec (0xA0 + n) 0x90); [lia|]. destruct (Z.ltb_spec (0xA0 + n) 0xA0); [lia|].
  destruct (Z.ltb_spec (0xA0 + n) 0xC0); [|lia]. f_equal. lia.
Qed.
Lemma classify_neg z : -32 <= z < 0 -> classify (Z.to_N (z + 256)) = TgInt z.
Proof.
  intros H. unfold classify. rewrite Z2N.id by lia. destruct (Z.ltb_spec (z + 256) 0x80); [lia|].
  destruct (Z.ltb_spec (z + 256) 0x90); [lia|]. destruct (Z.ltb_spec (z + 256) 0xA0); [lia|].
  destruct (Z.ltb_spec (z + 256) 0xC0); [lia|]. destruct (Z.ltb_spec (z + 256) 0xE0); [lia|].
  destruct (Z.ltb_spec (z + 256) 256); [|lia]. f_equal. lia.
Qed.
Lemma read1 v rest : 0 <= v < 256 -> read_uint 1 (be 1 v ++ rest) = Ok (v, rest).
Proof. intros H. apply (read_be 1). exact H. Qed.
Lemma read2 v rest : 0 <= v < 65536 -> read_uint 2 (be 2 v ++ rest) = Ok (v, rest).
Proof. intros H. apply (read_be 2). exact H. Qed.
Lemma read4 v rest : 0 <= v < 4294967296 -> read_uint 4 (be 4 v ++ rest) = Ok (v, rest).
Proof. intros H. apply (read_be 4). exact H. Qed.
Lemma read8 v rest : 0 <= v < 18446744073709551616 -> read_uint 8 (be 8 v ++ rest) = Ok (v, rest).
Proof. intros H. apply (read_be 8). exact H. Qed.
Lemma unpack_S f b r : unpack (S f) (b :: r) =
  match classify b with
  | TgInt z => Ok (MInt z, r)
  | TgNil => Ok (MNil, r)
  | TgBool x => Ok (MBool x, r)
  | TgUint k => let* (v, r') := read_uint k r in Ok (MInt v, r')
  | TgSint k => let* (v, r') := read_uint k r in Ok (MInt (to_signed k v), r')
  | TgFloat => let* (v, r') := read_uint 8 r in Ok (MFloat (Z.to_N v), r')
  | TgStr n => unpack_str n r
  | TgStrN k => let* (n, r') := read_uint k r in unpack_str n r'
  | TgBin k => let* (n, r') := read_uint k r in let* (x, r'') := take n r' in Ok (MBin x, r'')
  | TgArr n => let* (l, r') := unpack_list (unpack f) (Z.to_nat n) r in Ok (MArr l, r')
  | TgArrN k => let* (n, r') := read_uint k r in
                let* (l, r'') := unpack_list (unpack f) (Z.to_nat n) r' in Ok (MArr l, r'')
  | TgMap n => let* (d, r') := unpack_map (unpack f) (Z.to_nat n) [] r in Ok (MMap d, r')
  | TgMapN k => let* (n, r') := read_uint k r in
                let* (d, r'') := unpack_map (unpack f) (Z.to_nat n) [] r' in Ok (MMap d, r'')
  | TgFloat32 => let* (v, r') := read_uint 4 r in Ok (MFloat (Z.to_N (single_double v)), r')
  | TgExt _ | TgExtN _ => Err Unmodelled
  | TgBad => Err ValueError
  end.
Proof. reflexivity. Qed.
Local Opaque be.
Lemma signed_neg k v : 0 < k -> - 2 ^ (8 * k - 1) <= v < 0 -> to_signed k (v + 2 ^ (8 * k)) = v.
Proof.
  intros Hk Hv. unfold to_signed. assert (E : 2 ^ (8 * k) = 2 * 2 ^ (8 * k - 1)) by (rewrite <- Z.pow_succ_r by lia; f_equal; lia).
  destruct (Z.ltb_spec (v + 2 ^ (8 * k)) (2 ^ (8 * k - 1))); lia.
Qed.
Lemma int_round z p f rest : pack_int z = Ok p -> unpack (S f) (p ++ rest) = Ok (MInt z, rest).
Proof.
  unfold pack_int. intros H.
  destruct (Z.ltb_spec z (- 2 ^ 63)); [discriminate|].
  destruct (Z.ltb_spec z (- 2 ^ 31)).
  { apply Ok_inj in H. subst p. rewrite <- app_comm_cons, unpack_S. change (classify 0xD3) with (TgSint 8). cbv beta iota.
    rewrite read8 by lia. cbn [rbind]. change (2 ^ 64) with (2 ^ (8 * 8)). rewrite signed_neg by (change (2 ^ (8 * 8 - 1)) with (2 ^ 63); lia). reflexivity. }
  destruct (Z.ltb_spec z (- 2 ^ 15)).
  { apply Ok_inj in H. subst p. rewrite <- app_comm_cons, unpack_S. change (classify 0xD2) with (TgSint 4). cbv beta iota.
    rewrite read4 by lia. cbn [rbind]. change (2 ^ 32) with (2 ^ (8 * 4)). rewrite signed_neg by (change (2 ^ (8 * 4 - 1)) with (2 ^ 31); lia). reflexivity. }
  destruct (Z.ltb_spec z (- 2 ^ 7)).
  { apply Ok_inj in H. subst p. rewrite <- app_comm_cons, unpack_S. change (classify 0xD1) with (TgSint 2). cbv beta iota.
    rewrite read2 by lia. cbn [rbind]. change (2 ^ 16) with (2 ^ (8 * 2)). rewrite signed_neg by (change (2 ^ (8 * 2 - 1)) with (2 ^ 15); lia). reflexivity. }
  destruct (Z.ltb_spec z (- 32)).
  { apply Ok_inj in H. subst p. rewrite <- app_comm_cons, unpack_S. change (classify 0xD0) with (TgSint 1). cbv beta iota.
    rewrite read1 by lia. cbn [rbind]. change (2 ^ 8) with (2 ^ (8 * 1)). rewrite signed_neg by (change (2 ^ (8 * 1 - 1)) with (2 ^ 7); lia). reflexivity. }
  destruct (Z.ltb_spec z 0).
  { apply Ok_inj in H. subst p. rewrite <- app_comm_cons, unpack_S, classify_neg by lia. reflexivity. }
  destruct (Z.ltb_spec z (2 ^ 7)).
  { apply Ok_inj in H. subst p. rewrite <- app_comm_cons, unpack_S, classify_below by lia. reflexivity. }
  destruct (Z.ltb_spec z (2 ^ 8)).
  { apply Ok_inj in H. subst p. rewrite <- app_comm_cons, unpack_S. change (classify 0xCC) with (TgUint 1). cbv beta iota. rewrite read1 by lia. reflexivity. }
  destruct (Z.ltb_spec z (2 ^ 16)).
  { apply Ok_inj in H. subst p. rewrite <- app_comm_cons, unpack_S. change (classify 0xCD) with (TgUint 2). cbv beta iota. rewrite read2 by lia. reflexivity. }
  destruct (Z.ltb_spec z (2 ^ 32)).
  { apply Ok_inj in H. subst p. rewrite <- app_comm_cons, unpack_S. change (classify 0xCE) with (TgUint 4). cbv beta iota. rewrite read4 by lia. reflexivity. }
  destruct (Z.ltb_spec z (2 ^ 64)); [|discriminate].
  apply Ok_inj in H. subst p. rewrite <- app_comm_cons, unpack_S. change (classify 0xCF) with (TgUint 8). cbv beta iota. rewrite read8 by lia. reflexivity.
Qed.
Lemma zlen_nonneg {A} (l : list A) : 0 <= zlen l.
Proof. unfold zlen. lia. Qed.
Lemma unpack_str_app b x rest : utf8_decode b = Ok x -> unpack_str (zlen b) (b ++ rest) = Ok (MStr x, rest).
Proof. intros H. unfold unpack_str. rewrite take_app by reflexivity. cbn [rbind]. rewrite H. reflexivity. Qed.
Lemma str_round x p f rest : pack_str x = Ok p -> unpack (S f) (p ++ rest) = Ok (MStr x, rest).
Proof.
  unfold pack_str. destruct (utf8_encode x) as [b|] eqn:E; [|discriminate]. cbn [rbind]. apply utf8_round in E.
  unfold str_head. intros H. pose proof (zlen_nonneg b) as Hz.
  destruct (Z.ltb_spec (zlen b) 32).
  { apply Ok_inj in H. subst p. change ([Z.to_N (0xA0 + zlen b)] ++ b) with (Z.to_N (0xA0 + zlen b) :: b).
    rewrite <- app_comm_cons, unpack_S, classify_str by lia. apply unpack_str_app. assumption. }
  destruct (Z.ltb_spec (zlen b) (2 ^ 8)).
  { apply Ok_inj in H. subst p. rewrite <- !app_comm_cons, <- app_assoc, unpack_S. change (classify 0xD9) with (TgStrN 1). cbv beta iota.
    rewrite read1 by lia. apply unpack_str_app. assumption. }
  destruct (Z.ltb_spec (zlen b) (2 ^ 16)).
  { apply Ok_inj in H. subst p. rewrite <- !app_comm_cons, <- app_assoc, unpack_S. change (classify 0xDA) with (TgStrN 2). cbv beta iota.
    rewrite read2 by lia. apply unpack_str_app. assumption. }
  destruct (Z.ltb_spec (zlen b) (2 ^ 32)); [|discriminate].
  apply Ok_inj in H. subst p. rewrite <- !app_comm_cons, <- app_assoc, unpack_S. change (classify 0xDB) with (TgStrN 4). cbv beta iota.
  rewrite read4 by lia. apply unpack_str_app. assumption.
Qed.
Lemma bin_round x p f rest : pack (MBin x) = Ok p -> unpack (S f) (p ++ rest) = Ok (MBin x, rest).
Proof.
  cbn [pack]. unfold bin_head. intros H. pose proof (zlen_nonneg x) as Hz.
  destruct (Z.ltb_spec (zlen x) (2 ^ 8)).
  { apply Ok_inj in H. subst p. rewrite <- !app_comm_cons, <- app_assoc, unpack_S. change (classify 0xC4) with (TgBin 1). cbv beta iota.
    rewrite read1 by lia. cbn [rbind]. rewrite take_app by reflexivity. reflexivity. }
  destruct (Z.ltb_spec (zlen x) (2 ^ 16)).
  { apply Ok_inj in H. subst p. rewrite <- !app_comm_cons, <- app_assoc, unpack_S. change (classify 0xC5) with (TgBin 2). cbv beta iota.
    rewrite read2 by lia. cbn [rbind]. rewrite take_app by reflexivity. reflexivity. }
  destruct (Z.ltb_spec (zlen x) (2 ^ 32)); [|discriminate].
  apply Ok_inj in H. subst p. rewrite <- !app_comm_cons, <- app_assoc, unpack_S. change (classify 0xC6) with (TgBin 4). cbv beta iota.
  rewrite read4 by lia. cbn [rbind]. rewrite take_app by reflexivity. reflexivity.
Qed.
Lemma arr_head_round n hd f bs : 0 <= n -> arr_head n = Ok hd ->
  unpack (S f) (hd ++ bs) = (let* (l, r') := unpack_list (unpack f) (Z.to_nat n) bs in Ok (MArr l, r')).
Proof.
  unfold arr_head. intros Hz H.
  destruct (Z.ltb_spec n 16).
  { apply Ok_inj in H. subst hd. change ([Z.to_N (0x90 + n)] ++ bs) with (Z.to_N (0x90 + n) :: bs). rewrite unpack_S, classify_arr by lia. reflexivity. }
  destruct (Z.ltb_spec n (2 ^ 16)).
  { apply Ok_inj in H. subst hd. rewrite <- app_comm_cons, unpack_S. change (classify 0xDC) with (TgArrN 2). cbv beta iota. rewrite read2 by lia. reflexivity. }
  destruct (Z.ltb_spec n (2 ^ 32)); [|discriminate].
  apply Ok_inj in H. subst hd. rewrite <- app_comm_cons, unpack_S. change (classify 0xDD) with (TgArrN 4). cbv beta iota. rewrite read4 by lia. reflexivity.
Qed.
Lemma map_head_round n hd f bs : 0 <= n -> map_head n = Ok hd ->
  unpack (S f) (hd ++ bs) = (let* (d, r') := unpack_map (unpack f) (Z.to_nat n) [] bs in Ok (MMap d, r')).
Proof.
  unfold map_head. intros Hz H.
  destruct (Z.ltb_spec n 16).
  { apply Ok_inj in H. subst hd. change ([Z.to_N (0x80 + n)] ++ bs) with (Z.to_N (0x80 + n) :: bs). rewrite unpack_S, classify_map by lia. reflexivity. }
  destruct (Z.ltb_spec n (2 ^ 16)).
  { apply Ok_inj in H. subst hd. rewrite <- app_comm_cons, unpack_S. change (classify 0xDE) with (TgMapN 2). cbv beta iota. rewrite read2 by lia. reflexivity. }
  destruct (Z.ltb_spec n (2 ^ 32)); [|discriminate].
  apply Ok_inj in H. subst hd. rewrite <- app_comm_cons, unpack_S. change (classify 0xDF) with (TgMapN 4). cbv beta iota. rewrite read4 by lia. reflexivity.
Qed.
Lemma arr_head_len n hd : arr_head n = Ok hd -> (1 <= length hd)%nat.
Proof. unfold arr_head. repeat (destruct (_ <? _); [intros [= <-]; simpl; lia|]). discriminate. Qed.
Lemma map_head_len n hd : map_head n = Ok hd -> (1 <= length hd)%nat.
Proof. unfold map_head. repeat (destruct (_ <? _); [intros [= <-]; simpl; lia|]). discriminate. Qed.
Lemma str_head_len n hd : str_head n = Ok hd -> (1 <= length hd)%nat.
Proof. unfold str_head. repeat (destruct (_ <? _); [intros [= <-]; simpl; lia|]). discriminate. Qed.
Lemma bin_head_len n hd : bin_head n = Ok hd -> (1 <= length hd)%nat.
Proof. unfold bin_head. repeat (destruct (_ <? _); [intros [= <-]; simpl; lia|]). discriminate. Qed.
Lemma pack_int_len n hd : pack_int n = Ok hd -> (1 <= length hd)%nat.
Proof. unfold pack_int. destruct (_ <? _); [discriminate|]. repeat (destruct (_ <? _); [intros [= <-]; simpl; lia|]). discriminate. Qed.
Lemma pack_str_len x p : pack_str x = Ok p -> (1 <= length p)%nat.
Proof.
  unfold pack_str. destruct (utf8_encode x) as [b|]; [|discriminate]. cbn [rbind]. destruct (str_head (zlen b)) as [hd|] eqn:E; [|discriminate].
  intros [= <-]. apply str_head_len in E. rewrite app_length. lia.
Qed.
Lemma pack_len o p : pack o = Ok p -> (1 <= length p)%nat.
Proof.
  destruct o as [|b|i|b|x|x|l|d]; cbn [pack]; intros H.
  - injection H as <-. simpl; lia.
  - destruct b; injection H as <-; simpl; lia.
  - apply pack_int_len in H. assumption.
  - injection H as <-. simpl; lia.
  - apply pack_str_len in H. assumption.
  - destruct (bin_head (zlen x)) as [hd|] eqn:E; [|discriminate]. injection H as <-. apply bin_head_len in E. rewrite app_length. lia.
  - destruct (arr_head (zlen l)) as [hd|] eqn:E; [|discriminate]. cbn [rbind] in H. destruct (concatM pack l); [|discriminate]. injection H as <-. apply arr_head_len in E. rewrite app_length. lia.
  - destruct (map_head (zlen d)) as [hd|] eqn:E; [|discriminate]. cbn [rbind] in H. destruct (concatM _ d); [|discriminate]. injection H as <-. apply map_head_len in E. rewrite app_length. lia.
Qed.
Lemma dset_new {A} (d : dict A) k v : ~ In k (map fst d) -> dset d k v = d ++ [(k, v)].
Proof.
  induction d as [|[k' v'] d IH]; simpl; intros H; [reflexivity|]. destruct (str_eqb_spec k k') as [->|]; [exfalso; apply H; auto|].
  rewrite IH by (intros C; apply H; auto). reflexivity.
Qed.

(** ** round trip *)
Definition rounds (o : mobj) : Prop := python_value o -> forall p f rest, pack o = Ok p -> (length p <= f)%nat -> unpack f (p ++ rest) = Ok (o, rest).
Lemma list_round l : Forall rounds l -> Forall python_value l -> forall b f rest, concatM pack l = Ok b -> (length b <= f)%nat ->
  unpack_list (unpack f) (length l) (b ++ rest) = Ok (l, rest).
Proof.
  induction l as [|o l IH]; simpl; intros HF HP b f rest H Hf; [injection H as <-; reflexivity|].
  inversion HF as [|? ? R RF]; subst. inversion HP as [|? ? V VF]; subst.
  destruct (pack o) as [p|] eqn:E; [|discriminate]. cbn [rbind] in H. destruct (concatM pack l) as [q|]; [|discriminate]. cbn [rbind] in H.
  injection H as <-. rewrite app_length in Hf. rewrite <- app_assoc, (R V p f _ E) by lia. cbn [rbind].
  rewrite (IH RF VF q) by (auto; lia). reflexivity.
Qed.
Lemma map_round d : Forall rounds (map snd d) -> Forall python_value (map snd d) -> forall acc b f rest,
  NoDup (map fst (acc ++ d)) ->
  concatM (fun kv => let* k := pack_str (fst kv) in let* v := pack (snd kv) in Ok (k ++ v)) d = Ok b -> (length b <= f)%nat ->
  unpack_map (unpack f) (length d) acc (b ++ rest) = Ok (acc ++ d, rest).
Proof.
  induction d as [|[k o] d IH]; simpl; intros HF HP acc b f rest ND H Hf; [injection H as <-; rewrite app_nil_r; reflexivity|].
  inversion HF as [|? ? R RF]; subst. inversion HP as [|? ? V VF]; subst.
  destruct (pack_str k) as [pk|] eqn:Ek; [|discriminate]. cbn [rbind] in H.
  destruct (pack o) as [p|] eqn:E; [|discriminate]. cbn [rbind] in H.
  match type of H with (let* b := ?g in _) = _ => destruct g as [q|] eqn:Eq end; [|discriminate]. cbn [rbind] in H.
  injection H as <-. rewrite !app_length in Hf. pose proof (pack_str_len _ _ Ek) as Hk. destruct f as [|f]; [lia|].
  rewrite <- !app_assoc, (str_round k pk f) by assumption. cbn [rbind].
  rewrite (R V p (S f) _ E) by lia. cbn [rbind].
  rewrite dset_new.
  - replace (acc ++ (k, o) :: d) with ((acc ++ [(k, o)]) ++ d) in * by (rewrite <- app_assoc; reflexivity).
    apply (IH RF VF); auto. lia.
  - rewrite map_app in ND. simpl in ND. apply NoDup_remove_2 in ND. intros C. apply ND, in_or_app. auto.
Qed.
Lemma pack_round o : rounds o.
Proof.
  induction o using mobj_rect'; unfold rounds; intros V p f rest H' Hf; (destruct f as [|f]; [apply pack_len in H'; lia|]).
  - cbn [pack] in H'. injection H' as <-. reflexivity.
  - destruct b; cbn [pack] in H'; injection H' as <-; reflexivity.
  - apply int_round. exact H'.
  - cbn [pack] in H'. apply Ok_inj in H'. subst p. inversion V; subst. rewrite <- app_comm_cons, unpack_S. change (classify 0xCB) with TgFloat. cbv beta iota.
    rewrite read8 by lia. cbn [rbind]. rewrite N2Z.id. reflexivity.
  - apply str_round. exact H'.
  - apply bin_round. exact H'.
  - cbn [pack] in H'. destruct (arr_head (zlen l)) as [hd|] eqn:E; [|discriminate]. cbn [rbind] in H'.
    destruct (concatM pack l) as [b|] eqn:Eb; [|discriminate]. apply Ok_inj in H'. subst p. pose proof (arr_head_len _ _ E).
    rewrite app_length in Hf. rewrite <- app_assoc, (arr_head_round _ hd f _ (zlen_nonneg l) E). unfold zlen. rewrite Nat2Z.id. inversion V; subst.
    rewrite (list_round l) by (auto; lia). reflexivity.
  - cbn [pack] in H'. destruct (map_head (zlen d)) as [hd|] eqn:E; [|discriminate]. cbn [rbind] in H'.
    match type of H' with (let* b := ?g in _) = _ => destruct g as [b|] eqn:Eb end; [|discriminate]. apply Ok_inj in H'. subst p. pose proof (map_head_len _ _ E).
    rewrite app_length in Hf. rewrite <- app_assoc, (map_head_round _ hd f _ (zlen_nonneg d) E). unfold zlen. rewrite Nat2Z.id. inversion V; subst.
    rewrite (map_round d) by (auto; lia). reflexivity.
Qed.
Lemma unpack1_pack o p rest : python_value o -> pack o = Ok p -> unpack1 (p ++ rest) = Ok (o, rest).
Proof. intros V H. apply pack_round; auto. rewrite app_length. lia. Qed.

(** ** skipping: whatever is unpacked can be skipped *)
Lemma skip_list u sk : (forall bs o r, u bs = Ok (o, r) -> sk bs = Ok (tt, r)) -> forall n bs l r, unpack_list u n bs = Ok (l, r) -> skip_n sk n bs = Ok (tt, r).
Proof.
  intros Hu. induction n as [|n IH]; simpl; intros bs l r H; [injection H as <- <-; reflexivity|].
  destruct (u bs) as [[o r1]|] eqn:E; [|discriminate]. cbn [rbind] in H. rewrite (Hu _ _ _ E). cbn [rbind].
  destruct (unpack_list u n r1) as [[os r2]|] eqn:E2; [|discriminate]. injection H as <- <-. exact (IH _ _ _ E2).
Qed.
Lemma skip_map u sk : (forall bs o r, u bs = Ok (o, r) -> sk bs = Ok (tt, r)) -> forall n acc bs l r, unpack_map u n acc bs = Ok (l, r) -> skip_n sk (n + n) bs = Ok (tt, r).
Proof.
  intros Hu. induction n as [|n IH]; simpl; intros acc bs l r H; [injection H as <- <-; reflexivity|].
  destruct (u bs) as [[o r1]|] eqn:E; [|discriminate]. cbn [rbind] in H. rewrite (Hu _ _ _ E). cbn [rbind]. rewrite Nat.add_succ_r. cbn [skip_n].
  destruct o; try discriminate. destruct (u r1) as [[v r2]|] eqn:E2; [|discriminate]. cbn [rbind] in H. rewrite (Hu _ _ _ E2). cbn [rbind]. exact (IH _ _ _ _ H).
Qed.
Lemma skip_uint k bs v r : read_uint k bs = Ok (v, r) -> skip_bytes k bs = Ok (tt, r).
Proof. unfold read_uint, skip_bytes. destruct (take k bs) as [[a b]|]; [|discriminate]. cbn [rbind]. intros [= _ ->]. reflexivity. Qed.
Lemma skip_ustr n bs o r : unpack_str n bs = Ok (o, r) -> skip_bytes n bs = Ok (tt, r).
Proof. unfold unpack_str, skip_bytes. destruct (take n bs) as [[a b]|]; [|discriminate]. cbn [rbind]. destruct (utf8_decode a); [|discriminate]. intros [= _ ->]. reflexivity. Qed.
Lemma unpack_skip f : forall bs o r, unpack f bs = Ok (o, r) -> skip f bs = Ok (tt, r).
Proof.
  induction f as [|f IH]; intros bs o r H; [discriminate|]. destruct bs as [|b bs]; [discriminate|]. rewrite unpack_S in H. cbn [skip].
  destruct (classify b); try discriminate H.
  all: repeat match type of H with
    | (let* (_, _) := ?g in _) = _ => let E := fresh "E" in destruct g as [[? ?]|] eqn:E; [cbn [rbind] in H|discriminate H] end.
  all: try (injection H as _ <-).
  all: cbn [rbind]; rewrite ?(fun n => eq_refl : (2 * n)%nat = (n + (n + 0))%nat), ?Nat.add_0_r.
  all: try reflexivity.
  all: eauto using skip_uint, skip_ustr, skip_list, skip_map.
  unfold skip_bytes. rewrite E0. reflexivity.
Qed.
Lemma skip1_unpack1 bs o r : unpack1 bs = Ok (o, r) -> skip1 bs = Ok (tt, r).
Proof. unfold unpack1, skip1. intros H. rewrite (unpack_skip _ _ _ _ H). reflexivity. Qed.
Lemma skip1_pack o p rest : python_value o -> pack o = Ok p -> skip1 (p ++ rest) = Ok (tt, rest).
Proof. intros P H. exact (skip1_unpack1 _ _ _ (unpack1_pack o p rest P H)). Qed.

(** ** what can be packed *)
Lemma utf8_char_len c : scalar c -> exists a, utf8_char c = Ok a /\ zlen a = utf8_width c.
Proof.
  unfold scalar, utf8_char, utf8_width, is_surrogate. intros H.
  destruct (N.ltb_spec c 0x80); [eexists; split; reflexivity|]. destruct (N.ltb_spec c 0x800); [eexists; split; reflexivity|].
  replace (N.leb 0xD800 c && N.leb c 0xDFFF)%bool with false
    by (symmetry; apply andb_false_iff; destruct H; [left|right]; apply N.leb_gt; lia).
  destruct (N.ltb_spec c 0x10000); [eexists; split; reflexivity|]. destruct (N.ltb_spec c 0x110000); [eexists; split; reflexivity|lia].
Qed.
Lemma utf8_char_scalar c a : utf8_char c = Ok a -> scalar c.
Proof.
  unfold scalar, utf8_char, is_surrogate. intros H.
  destruct (N.ltb_spec c 0x80); [lia|]. destruct (N.ltb_spec c 0x800); [lia|].
  destruct (N.leb_spec 0xD800 c); destruct (N.leb_spec c 0xDFFF); cbn [andb] in H; try lia; try discriminate.
  destruct (N.ltb_spec c 0x10000); [lia|]. destruct (N.ltb_spec c 0x110000); [lia|discriminate].
Qed.
Lemma utf8_encode_scalar x b : utf8_encode x = Ok b -> Forall scalar x.
Proof.
  revert b. induction x as [|c x IH]; simpl; intros b H; [constructor|].
  destruct (utf8_char c) as [a|] eqn:E; [|discriminate]. cbn [rbind] in H. destruct (utf8_encode x) as [b'|]; [|discriminate].
  constructor; [eapply utf8_char_scalar; eauto|eauto].
Qed.
Lemma utf8_encode_len x : Forall scalar x -> exists b, utf8_encode x = Ok b /\ zlen b = utf8_len x.
Proof.
  induction 1 as [|c x Hc Hx [b [IH IH']]]; [exists []; split; reflexivity|].
  destruct (utf8_char_len c Hc) as [a [E E']]. exists (a ++ b). simpl. rewrite E, IH. cbn [rbind]. split; [reflexivity|].
  unfold zlen in *. rewrite app_length. lia.
Qed.
Lemma head_fits n : (exists p, str_head n = Ok p) <-> n < 4294967296.
Proof.
  unfold str_head. destruct (Z.ltb_spec n 32); [split; [lia|eauto]|]. destruct (Z.ltb_spec n (2 ^ 8)); [split; [lia|eauto]|].
  destruct (Z.ltb_spec n (2 ^ 16)); [split; [lia|eauto]|]. destruct (Z.ltb_spec n (2 ^ 32)); [split; [lia|eauto]|]. split; [intros [p Hp]; discriminate|lia].
Qed.
Lemma bin_head_fits n : (exists p, bin_head n = Ok p) <-> n < 4294967296.
Proof.
  unfold bin_head. destruct (Z.ltb_spec n (2 ^ 8)); [split; [lia|eauto]|].
  destruct (Z.ltb_spec n (2 ^ 16)); [split; [lia|eauto]|]. destruct (Z.ltb_spec n (2 ^ 32)); [split; [lia|eauto]|]. split; [intros [p Hp]; discriminate|lia].
Qed.
Lemma arr_head_fits n : (exists p, arr_head n = Ok p) <-> n < 4294967296.
Proof.
  unfold arr_head. destruct (Z.ltb_spec n 16); [split; [lia|eauto]|].
  destruct (Z.ltb_spec n (2 ^ 16)); [split; [lia|eauto]|]. destruct (Z.ltb_spec n (2 ^ 32)); [split; [lia|eauto]|]. split; [intros [p Hp]; discriminate|lia].
Qed.
Lemma map_head_fits n : (exists p, map_head n = Ok p) <-> n < 4294967296.
Proof.
  unfold map_head. destruct (Z.ltb_spec n 16); [split; [lia|eauto]|].
  destruct (Z.ltb_spec n (2 ^ 16)); [split; [lia|eauto]|]. destruct (Z.ltb_spec n (2 ^ 32)); [split; [lia|eauto]|]. split; [intros [p Hp]; discriminate|lia].
Qed.
Lemma pack_str_fits x : (exists p, pack_str x = Ok p) <-> str_fits x.
Proof.
  unfold pack_str, str_fits. split.
  - intros [p H]. destruct (utf8_encode x) as [b|] eqn:E; [|discriminate]. cbn [rbind] in H. pose proof (utf8_encode_scalar x b E) as Hs.
    split; [assumption|]. destruct (utf8_encode_len x Hs) as [b' [E' <-]]. rewrite E in E'. injection E' as <-.
    apply head_fits. destruct (str_head (zlen b)); [eauto|discriminate].
  - intros [Hs Hl]. destruct (utf8_encode_len x Hs) as [b [-> E']]. cbn [rbind]. rewrite <- E' in Hl. apply head_fits in Hl. destruct Hl as [p ->]. cbn [rbind]. eauto.
Qed.
Lemma pack_int_fits i : (exists p, pack_int i = Ok p) <-> - 9223372036854775808 <= i < 18446744073709551616.
Proof.
  unfold pack_int. destruct (Z.ltb_spec i (- 2 ^ 63)); [split; [intros [p Hp]; discriminate|lia]|].
  repeat match goal with |- context [?a <? ?b] => destruct (Z.ltb_spec a b); [split; [lia|eauto]|] end. split; [intros [p Hp]; discriminate|lia].
Qed.
Lemma concat_fits {A} (f : A -> res (list N)) (P : A -> Prop) l :
  Forall (fun x => (exists p, f x = Ok p) <-> P x) l -> (exists p, concatM f l = Ok p) <-> Forall P l.
Proof.
  induction 1 as [|x l Hx Hl IH]; simpl; [split; [constructor|eauto]|]. split.
  - intros [p Hp]. destruct (f x) as [a|] eqn:E; [|discriminate]. cbn [rbind] in Hp. destruct (concatM f l) as [b|]; [|discriminate].
    constructor; [apply Hx; eauto|apply IH; eauto].
  - intros HF. inversion HF as [|? ? P1 P2]; subst. apply Hx in P1. apply IH in P2. destruct P1 as [a ->], P2 as [b ->]. cbn [rbind]. eauto.
Qed.
Lemma pack_fits o : (exists p, pack o = Ok p) <-> fits o.
Proof.
  induction o using mobj_rect'; cbn [pack].
  - split; [constructor|eauto].
  - split; [constructor|destruct b; eauto].
  - rewrite pack_int_fits. split; [constructor; assumption|]. intros H. inversion H. assumption.
  - split; [constructor|eauto].
  - rewrite pack_str_fits. split; [constructor; assumption|]. intros H. inversion H. assumption.
  - split.
    + intros [p H]. constructor. apply bin_head_fits. destruct (bin_head (zlen x)); [eauto|discriminate].
    + intros H. inversion H as [| | | | |? Hl| |]; subst. apply bin_head_fits in Hl. destruct Hl as [p ->]. cbn [rbind]. eauto.
  - pose proof (concat_fits pack fits l H) as CF. split.
    + intros [p Hp]. destruct (arr_head (zlen l)) as [hd|] eqn:E; [|discriminate]. cbn [rbind] in Hp. destruct (concatM pack l) as [b|]; [|discriminate].
      constructor; [apply arr_head_fits; eauto|apply CF; eauto].
    + intros HF. inversion HF as [| | | | | |? Hl Hf|]; subst. apply arr_head_fits in Hl. destruct Hl as [p ->]. apply CF in Hf. destruct Hf as [b ->]. cbn [rbind]. eauto.
  - assert (CF : (exists p, concatM (fun kv => let* k := pack_str (fst kv) in let* v := pack (snd kv) in Ok (k ++ v)) d = Ok p)
                 <-> Forall (fun kv => str_fits (fst kv) /\ fits (snd kv)) d).
    { apply concat_fits. clear -H. induction d as [|[k v] d IH]; simpl in *; [constructor|]. inversion H as [|? ? H1 H2]; subst. constructor; [|auto].
      simpl. rewrite <- pack_str_fits, <- H1. split.
      - intros [p Hp]. destruct (pack_str k); [|discriminate]. cbn [rbind] in Hp. destruct (pack v); [|discriminate]. eauto.
      - intros [[p ->] [q ->]]. cbn [rbind]. eauto. }
    assert (CG : Forall (fun kv => str_fits (fst kv) /\ fits (snd kv)) d <-> Forall str_fits (map fst d) /\ Forall fits (map snd d)).
    { rewrite !Forall_map. split; [intros HF; split; eapply Forall_impl; try exact HF; simpl; tauto|]. intros [F1 F2].
      rewrite Forall_forall in *. intros kv Hkv. split; auto. }
    rewrite CG in CF. split.
    + intros [p Hp]. destruct (map_head (zlen d)) as [hd|] eqn:E; [|discriminate]. cbn [rbind] in Hp.
      match type of Hp with (let* b := ?g in _) = _ => destruct g as [b|] end; [|discriminate].
      destruct CF as [CF _]. destruct CF as [F1 F2]; [eauto|]. constructor; [apply map_head_fits; eauto|assumption|assumption].
    + intros HF. inversion HF as [| | | | | | |? Hl Hf1 Hf2]; subst. apply map_head_fits in Hl. destruct Hl as [p ->]. cbn [rbind].
      destruct CF as [_ CF]. destruct CF as [b Hb]; [split; assumption|]. rewrite Hb. cbn [rbind]. eauto.
Qed.

(** ** unpacking consumes at least one byte, so it never runs out of fuel *)
Definition shrinks (u : unpacker) := forall bs o r, u bs = Ok (o, r) -> (length r < length bs)%nat.
Lemma take_len k bs a b : take k bs = Ok (a, b) -> (length b <= length bs)%nat.
Proof. intros H. apply take_ok in H. destruct H as [-> _]. rewrite app_length. lia. Qed.
Lemma read_len k bs v r : read_uint k bs = Ok (v, r) -> (length r <= length bs)%nat.
Proof. unfold read_uint. destruct (take k bs) as [[a b]|] eqn:E; [|discriminate]. intros [= <- <-]. eapply take_len; eauto. Qed.
Lemma ustr_len n bs o r : unpack_str n bs = Ok (o, r) -> (length r <= length bs)%nat.
Proof.
  unfold unpack_str. destruct (take n bs) as [[a b]|] eqn:E; [|discriminate]. cbn [rbind]. destruct (utf8_decode a); [|discriminate].
  intros [= <- <-]. eapply take_len; eauto.
Qed.
Lemma ulist_len u : shrinks u -> forall n bs l r, unpack_list u n bs = Ok (l, r) -> (length r <= length bs)%nat.
Proof.
  intros Hu. induction n as [|n IH]; simpl; intros bs l r H; [injection H as <- <-; lia|].
  destruct (u bs) as [[o r1]|] eqn:E; [|discriminate]. cbn [rbind] in H. destruct (unpack_list u n r1) as [[os r2]|] eqn:E2; [|discriminate].
  injection H as <- <-. apply Hu in E. apply IH in E2. lia.
Qed.
Lemma umap_len u : shrinks u -> forall n acc bs l r, unpack_map u n acc bs = Ok (l, r) -> (length r <= length bs)%nat.
Proof.
  intros Hu. induction n as [|n IH]; simpl; intros acc bs l r H; [injection H as <- <-; lia|].
  destruct (u bs) as [[o r1]|] eqn:E; [|discriminate]. cbn [rbind] in H. destruct o; try discriminate.
  destruct (u r1) as [[v r2]|] eqn:E2; [|discriminate]. cbn [rbind] in H.
  apply Hu in E. apply Hu in E2. apply IH in H. lia.
Qed.
Lemma unpack_shrinks f : shrinks (unpack f).
Proof.
  induction f as [|f IH]; intros bs o r H; [discriminate|]. destruct bs as [|b bs]; [discriminate|].
  rewrite unpack_S in H. simpl length. destruct (classify b).
  all: repeat match type of H with
    | (let* (_, _) := ?g in _) = _ => let E := fresh "E" in destruct g as [[? ?]|] eqn:E; [cbn [rbind] in H|discriminate H] end.
  all: try discriminate H.
  all: repeat match goal with
    | E : read_uint _ _ = Ok _ |- _ => apply read_len in E
    | E : take _ _ = Ok _ |- _ => apply take_len in E
    | E : unpack_str _ _ = Ok _ |- _ => apply ustr_len in E
    | E : unpack_list _ _ _ = Ok _ |- _ => apply (ulist_len _ IH) in E
    | E : unpack_map _ _ _ _ = Ok _ |- _ => apply (umap_len _ IH) in E
    | E : Ok _ = Ok (_, _) |- _ => injection E as <- <- end; lia.
Qed.
Lemma utf8_decode_nofuel n : forall bs, (length bs <= n)%nat -> utf8_decode bs <> Err OutOfFuel.
Proof.
  induction n as [|n IH]; intros bs Hl; [destruct bs; [discriminate|simpl in Hl; lia]|].
  assert (K : forall r c, (length r <= n)%nat -> (let* x := utf8_decode r in Ok (c :: x)) <> Err OutOfFuel).
  { intros r c Hr. specialize (IH r Hr). destruct (utf8_decode r); [discriminate|]. cbn [rbind]. congruence. }
  destruct bs as [|b0 r]; [discriminate|]. cbn [utf8_decode]. simpl length in Hl.
  destruct (N.ltb b0 0x80); [apply K; lia|]. destruct (N.ltb b0 0xC0); [discriminate|].
  destruct (N.ltb b0 0xE0).
  { destruct r as [|b1 r]; [discriminate|]. simpl length in Hl. destruct (_ && _)%bool; [apply K; lia|discriminate]. }
  destruct (N.ltb b0 0xF0).
  { destruct r as [|b1 [|b2 r]]; try discriminate. simpl length in Hl. destruct (_ && _)%bool; [apply K; lia|discriminate]. }
  destruct (N.ltb b0 0xF8); [|discriminate].
  destruct r as [|b1 [|b2 [|b3 r]]]; try discriminate. simpl length in Hl. destruct (_ && _)%bool; [apply K; lia|discriminate].
Qed.
Lemma take_nofuel k bs : take k bs <> Err OutOfFuel.
Proof. unfold take. destruct (_ <? _); discriminate. Qed.
Lemma read_nofuel k bs : read_uint k bs <> Err OutOfFuel.
Proof. unfold read_uint. pose proof (take_nofuel k bs). destruct (take k bs) as [[a b]|]; [discriminate|]. cbn [rbind]. congruence. Qed.
Lemma ustr_nofuel n bs : unpack_str n bs <> Err OutOfFuel.
Proof.
  unfold unpack_str. pose proof (take_nofuel n bs). destruct (take n bs) as [[a b]|]; [|cbn [rbind]; congruence]. cbn [rbind].
  pose proof (utf8_decode_nofuel _ a (le_n _)). destruct (utf8_decode a); [discriminate|]. cbn [rbind]. congruence.
Qed.
Lemma ulist_nofuel u m : shrinks u -> (forall bs, (length bs < m)%nat -> u bs <> Err OutOfFuel) -> forall n bs, (length bs < m)%nat -> unpack_list u n bs <> Err OutOfFuel.
Proof.
  intros Hs Hu. induction n as [|n IH]; simpl; intros bs Hl; [discriminate|].
  pose proof (Hu bs Hl) as H0. destruct (u bs) as [[o r]|] eqn:E; [|cbn [rbind]; congruence]. cbn [rbind]. apply Hs in E.
  specialize (IH r ltac:(lia)). destruct (unpack_list u n r) as [[os r']|]; [discriminate|]. cbn [rbind]. congruence.
Qed.
Lemma umap_nofuel u m : shrinks u -> (forall bs, (length bs < m)%nat -> u bs <> Err OutOfFuel) -> forall n acc bs, (length bs < m)%nat -> unpack_map u n acc bs <> Err OutOfFuel.
Proof.
  intros Hs Hu. induction n as [|n IH]; simpl; intros acc bs Hl; [discriminate|].
  pose proof (Hu bs Hl) as H0. destruct (u bs) as [[o r]|] eqn:E; [|cbn [rbind]; congruence]. cbn [rbind]. apply Hs in E.
  destruct o; try discriminate. pose proof (Hu r ltac:(lia)) as H1. destruct (u r) as [[v r']|] eqn:E'; [|cbn [rbind]; congruence].
  cbn [rbind]. apply Hs in E'. apply IH. lia.
Qed.
Lemma unpack_nofuel f : forall bs, (length bs < f)%nat -> unpack f bs <> Err OutOfFuel.
Proof.
  induction f as [|f IH]; intros bs Hl; [lia|]. destruct bs as [|b bs]; [discriminate|]. simpl length in Hl.
  assert (KL : forall n bs', (length bs' < f)%nat -> unpack_list (unpack f) n bs' <> Err OutOfFuel) by (apply ulist_nofuel; [apply unpack_shrinks|exact IH]).
  assert (KM : forall n acc bs', (length bs' < f)%nat -> unpack_map (unpack f) n acc bs' <> Err OutOfFuel) by (apply umap_nofuel; [apply unpack_shrinks|exact IH]).
  rewrite unpack_S. destruct (classify b); try discriminate.
  - specialize (KM (Z.to_nat n) [] bs ltac:(lia)). destruct (unpack_map _ _ _ bs) as [[? ?]|]; [discriminate|]. cbn [rbind]. congruence.
  - specialize (KL (Z.to_nat n) bs ltac:(lia)). destruct (unpack_list _ _ bs) as [[? ?]|]; [discriminate|]. cbn [rbind]. congruence.
  - apply ustr_nofuel.
  - pose proof (read_nofuel k bs). destruct (read_uint k bs) as [[n r]|]; [|cbn [rbind]; congruence]. cbn [rbind].
    pose proof (take_nofuel n r). destruct (take n r) as [[a c]|]; [discriminate|]. cbn [rbind]. congruence.
  - pose proof (read_nofuel 8 bs). destruct (read_uint 8 bs) as [[n r]|]; [discriminate|]. cbn [rbind]. congruence.
  - pose proof (read_nofuel k bs). destruct (read_uint k bs) as [[n r]|]; [discriminate|]. cbn [rbind]. congruence.
  - pose proof (read_nofuel k bs). destruct (read_uint k bs) as [[n r]|]; [discriminate|]. cbn [rbind]. congruence.
  - pose proof (read_nofuel k bs). destruct (read_uint k bs) as [[n r]|]; [|cbn [rbind]; congruence]. cbn [rbind]. apply ustr_nofuel.
  - pose proof (read_nofuel k bs). destruct (read_uint k bs) as [[n r]|] eqn:E; [|cbn [rbind]; congruence]. cbn [rbind]. apply read_len in E.
    specialize (KL (Z.to_nat n) r ltac:(lia)). destruct (unpack_list _ _ r) as [[? ?]|]; [discriminate|]. cbn [rbind]. congruence.
  - pose proof (read_nofuel k bs). destruct (read_uint k bs) as [[n r]|] eqn:E; [|cbn [rbind]; congruence]. cbn [rbind]. apply read_len in E.
    specialize (KM (Z.to_nat n) [] r ltac:(lia)). destruct (unpack_map _ _ _ r) as [[? ?]|]; [discriminate|]. cbn [rbind]. congruence.
  - pose proof (read_nofuel 4 bs). destruct (read_uint 4 bs) as [[n r]|]; [discriminate|]. cbn [rbind]. congruence.
Qed.

(** ** the packed form is the shortest, and unpacked objects are Python values *)
Definition tag_range (t : tag) : Prop :=
  match t with
  | TgInt z => -32 <= z < 128
  | TgMap n | TgArr n => 0 <= n < 16
  | TgStr n => 0 <= n < 32
  | TgBin k | TgStrN k => k = 1 \/ k = 2 \/ k = 4
  | TgUint k | TgSint k => k = 1 \/ k = 2 \/ k = 4 \/ k = 8
  | TgArrN k | TgMapN k => k = 2 \/ k = 4
  | _ => True
  end.
Lemma classify_range b : (b < 256)%N -> tag_range (classify b).
Proof.
  intros Hb. unfold classify.
  destruct (Z.ltb_spec (Z.of_N b) 0x80); [simpl; lia|]. destruct (Z.ltb_spec (Z.of_N b) 0x90); [simpl; lia|].
  destruct (Z.ltb_spec (Z.of_N b) 0xA0); [simpl; lia|]. destruct (Z.ltb_spec (Z.of_N b) 0xC0); [simpl; lia|].
  destruct (Z.ltb_spec (Z.of_N b) 0xE0).
  - repeat match goal with |- tag_range (match ?x with _ => _ end) => destruct x end; simpl; auto.
  - destruct (Z.ltb_spec (Z.of_N b) 256); simpl; [lia|exact I].
Qed.
Definition min_len (q : res (list N)) (k : nat) : Prop := exists p, q = Ok p /\ (length p <= k)%nat.
Local Transparent be.
Lemma int_min_small z : -32 <= z < 128 -> min_len (pack_int z) 1.
Proof.
  intros H. unfold pack_int.
  do 5 (match goal with |- context [?a <? ?b] => destruct (Z.ltb_spec a b); [lia|] end).
  destruct (Z.ltb_spec z 0); [eexists; split; [reflexivity|simpl; lia]|]. destruct (Z.ltb_spec z (2 ^ 7)); [eexists; split; [reflexivity|simpl; lia]|lia].
Qed.
Ltac int_min := unfold pack_int; repeat match goal with |- context [?a <? ?b] => destruct (Z.ltb_spec a b); [try lia; try (eexists; split; [reflexivity|simpl; lia])|] end; lia.
Lemma int_min_1 z : -128 <= z < 256 -> min_len (pack_int z) 2.
Proof. intros H. int_min. Qed.
Lemma int_min_2 z : -32768 <= z < 65536 -> min_len (pack_int z) 3.
Proof. intros H. int_min. Qed.
Lemma int_min_4 z : -2147483648 <= z < 4294967296 -> min_len (pack_int z) 5.
Proof. intros H. int_min. Qed.
Lemma int_min_8 z : -9223372036854775808 <= z < 18446744073709551616 -> min_len (pack_int z) 9.
Proof. intros H. int_min. Qed.
Ltac head_min := repeat match goal with |- context [?a <? ?b] => destruct (Z.ltb_spec a b); [try lia; try (eexists; split; [reflexivity|simpl; lia])|] end; lia.
Lemma str_min n : (n < 32 -> min_len (str_head n) 1) /\ (n < 256 -> min_len (str_head n) 2) /\ (n < 65536 -> min_len (str_head n) 3) /\ (n < 4294967296 -> min_len (str_head n) 5).
Proof. unfold str_head. split; [|split; [|split]]; intros H; head_min. Qed.
Lemma bin_min n : (n < 256 -> min_len (bin_head n) 2) /\ (n < 65536 -> min_len (bin_head n) 3) /\ (n < 4294967296 -> min_len (bin_head n) 5).
Proof. unfold bin_head. split; [|split]; intros H; head_min. Qed.
Lemma arr_min n : (n < 16 -> min_len (arr_head n) 1) /\ (n < 65536 -> min_len (arr_head n) 3) /\ (n < 4294967296 -> min_len (arr_head n) 5).
Proof. unfold arr_head. split; [|split]; intros H; head_min. Qed.
Lemma map_min n : (n < 16 -> min_len (map_head n) 1) /\ (n < 65536 -> min_len (map_head n) 3) /\ (n < 4294967296 -> min_len (map_head n) 5).
Proof. unfold map_head. split; [|split]; intros H; head_min. Qed.

Lemma single_range v : 0 <= v < 4294967296 -> 0 <= single_double v < 18446744073709551616.
Proof.
  intros Hv. unfold single_double. pose proof (Z.mod_pos_bound (v / 2 ^ 23) 256 ltac:(lia)) as He. pose proof (Z.mod_pos_bound v (2 ^ 23) ltac:(lia)) as Hm.
  assert (Hs : 0 <= v / 2 ^ 31 <= 1) by (split; [apply Z.div_pos; lia|]; apply Z.lt_succ_r, Z.div_lt_upper_bound; lia).
  set (g := v / 2 ^ 31) in *. set (e := (v / 2 ^ 23) mod 256) in *. set (m := v mod 2 ^ 23) in *. cbv zeta.
  destruct (Z.eqb_spec e 255).
  - destruct (Z.eqb_spec m 0); [lia|].
    assert (0 <= Z.lor (m * 2 ^ 29) (2 ^ 51) < 2 ^ 52); [|lia]. split; [apply Z.lor_nonneg; lia|].
    apply Z.log2_lt_pow2; [|rewrite Z.log2_lor by lia; apply Z.max_lub_lt; [apply Z.log2_lt_pow2; lia|reflexivity]].
    assert (Z.lor (m * 2 ^ 29) (2 ^ 51) <> 0) by (intros E; apply Z.lor_eq_0_iff in E; lia). assert (0 <= Z.lor (m * 2 ^ 29) (2 ^ 51)) by (apply Z.lor_nonneg; lia). lia.
  - destruct (Z.eqb_spec e 0); [|lia]. destruct (Z.eqb_spec m 0); [lia|].
    pose proof (Z.log2_spec m ltac:(lia)) as [L1 L2]. assert (Hk : Z.log2 m < 23) by (apply Z.log2_lt_pow2; lia). pose proof (Z.log2_nonneg m) as Hk0. set (k := Z.log2 m) in *.
    assert (0 <= (m - 2 ^ k) * 2 ^ (52 - k) < 2 ^ 52); [|lia]. rewrite Z.pow_succ_r in L2 by lia. replace (2 ^ 52) with (2 ^ k * 2 ^ (52 - k)) by (rewrite <- Z.pow_add_r by lia; f_equal; lia).
    assert (0 < 2 ^ (52 - k)) by (apply Z.pow_pos_nonneg; lia). split; [apply Z.mul_nonneg_nonneg; lia|apply Z.mul_lt_mono_pos_r; lia].
Qed.
(** packing with floats in five bytes: no bytes that can be read are shorter than this *)
Fixpoint least (o : mobj) : res (list N) :=
  match o with
  | MFloat _ => Ok (0xCA%N :: be 4 0)
  | MArr l => let* hd := arr_head (zlen l) in let* b := concatM least l in Ok (hd ++ b)
  | MMap d => let* hd := map_head (zlen d) in
              let* b := concatM (fun kv => let* k := pack_str (fst kv) in let* v := least (snd kv) in Ok (k ++ v)) d in
              Ok (hd ++ b)
  | _ => pack o
  end.
Definition minimal (u : unpacker) : Prop := forall bs o r, bytes bs -> u bs = Ok (o, r) ->
  python_value o /\ bytes r /\ exists p, least o = Ok p /\ (length p + length r <= length bs)%nat.
Lemma bytes_app a b : bytes (a ++ b) <-> bytes a /\ bytes b.
Proof. apply Forall_app. Qed.
Lemma str_minimal n k bs o r : 0 <= n -> min_len (str_head n) k -> bytes bs -> unpack_str n bs = Ok (o, r) ->
  python_value o /\ bytes r /\ exists p, least o = Ok p /\ (length p + length r <= length bs + k)%nat.
Proof.
  intros Hn [hd [Eh Hh]] Hb. unfold unpack_str. destruct (take n bs) as [[a b]|] eqn:E; [|discriminate]. cbn [rbind].
  destruct (utf8_decode a) as [x|] eqn:Ed; [|discriminate]. intros [= <- <-]. apply take_ok in E. destruct E as [-> Hl]. specialize (Hl Hn).
  apply bytes_app in Hb. split; [constructor|]. split; [apply Hb|].
  exists (hd ++ a). cbn [pack least]. unfold pack_str. rewrite (utf8_strict _ a x (le_n _) Ed). cbn [rbind]. rewrite Hl, Eh. cbn [rbind]. split; [reflexivity|].
  rewrite !app_length. lia.
Qed.
Lemma ulist_minimal u : minimal u -> forall n bs l r, bytes bs -> unpack_list u n bs = Ok (l, r) ->
  Forall python_value l /\ bytes r /\ length l = n /\ exists b, concatM least l = Ok b /\ (length b + length r <= length bs)%nat.
Proof.
  intros Hu. induction n as [|n IH]; simpl; intros bs l r Hb H; [injection H as <- <-; split; [constructor|]; split; [assumption|]; split; [reflexivity|]; exists []; split; [reflexivity|simpl; lia]|].
  destruct (u bs) as [[o r1]|] eqn:E; [|discriminate]. cbn [rbind] in H. destruct (unpack_list u n r1) as [[os r2]|] eqn:E2; [|discriminate].
  injection H as <- <-. apply Hu in E; [|assumption]. destruct E as [V [Hb1 [p [Ep Lp]]]]. apply IH in E2; [|assumption]. destruct E2 as [VF [Hb2 [Ln [q [Eq Lq]]]]].
  split; [constructor; assumption|]. split; [assumption|]. split; [simpl; lia|]. exists (p ++ q). simpl. rewrite Ep, Eq. cbn [rbind]. split; [reflexivity|]. rewrite app_length. lia.
Qed.
Definition pk (kv : pystr * mobj) : res (list N) := let* k := pack_str (fst kv) in let* v := least (snd kv) in Ok (k ++ v).
Lemma dset_len {A} (d : dict A) k v : (length (dset d k v) <= S (length d))%nat.
Proof. induction d as [|[k' v'] d IH]; simpl; [lia|]. destruct (str_eqb k k'); simpl; lia. Qed.
Lemma dset_size acc k v e : pk (k, v) = Ok e -> forall b, concatM pk acc = Ok b -> exists b', concatM pk (dset acc k v) = Ok b' /\ (length b' <= length b + length e)%nat.
Proof.
  intros He. induction acc as [|[k' v'] acc IH]; intros b Hb.
  - simpl in *. rewrite He. cbn [rbind]. injection Hb as <-. eexists. split; [reflexivity|]. rewrite app_nil_r. simpl. lia.
  - cbn [concatM] in Hb. destruct (pk (k', v')) as [e'|] eqn:E'; [|discriminate]. cbn [rbind] in Hb. destruct (concatM pk acc) as [b0|] eqn:E0; [|discriminate].
    injection Hb as <-. cbn [dset]. destruct (str_eqb_spec k k') as [->|Hn].
    + cbn [concatM]. rewrite He, E0. cbn [rbind]. eexists. split; [reflexivity|]. rewrite !app_length. lia.
    + destruct (IH b0 eq_refl) as [b' [E1 L1]]. cbn [concatM]. rewrite E', E1. cbn [rbind]. eexists. split; [reflexivity|]. rewrite !app_length. lia.
Qed.
Lemma dset_vals {A} (P : A -> Prop) (d : dict A) k v : P v -> Forall P (map snd d) -> Forall P (map snd (dset d k v)).
Proof.
  intros Hv. induction d as [|[k' v'] d IH]; simpl; intros H; [constructor; auto|]. inversion H; subst. destruct (str_eqb k k'); simpl; constructor; auto.
Qed.
Lemma umap_minimal u : minimal u -> forall n acc bs d r b0, bytes bs -> unpack_map u n acc bs = Ok (d, r) ->
  NoDup (map fst acc) -> Forall python_value (map snd acc) -> concatM pk acc = Ok b0 ->
  NoDup (map fst d) /\ Forall python_value (map snd d) /\ bytes r /\ (length d <= length acc + n)%nat /\
  exists b, concatM pk d = Ok b /\ (length b + length r <= length b0 + length bs)%nat.
Proof.
  intros Hu. induction n as [|n IH]; simpl; intros acc bs d r b0 Hb H ND VF Eb.
  { injection H as <- <-. split; [assumption|]. split; [assumption|]. split; [assumption|]. split; [lia|]. exists b0. split; [assumption|lia]. }
  destruct (u bs) as [[o r1]|] eqn:E; [|discriminate]. cbn [rbind] in H. destruct o as [| | | |x| | |]; try discriminate.
  destruct (u r1) as [[v r2]|] eqn:E2; [|discriminate]. cbn [rbind] in H.
  apply Hu in E; [|assumption]. destruct E as [_ [Hb1 [p [Ep Lp]]]]. apply Hu in E2; [|assumption]. destruct E2 as [V [Hb2 [q [Eq Lq]]]].
  cbn [pack least] in Ep.
  assert (He : pk (x, v) = Ok (p ++ q)) by (unfold pk; simpl; rewrite Ep, Eq; reflexivity).
  destruct (dset_size acc x v (p ++ q) He b0 Eb) as [b' [Eb' Lb']].
  destruct (IH (dset acc x v) r2 d r b' Hb2 H) as [A1 [A2 [A3 [A4 [b [A5 A6]]]]]]; [apply (NoDup_dset acc x v ND)|apply dset_vals; assumption|assumption|].
  split; [assumption|]. split; [assumption|]. split; [assumption|]. split; [pose proof (dset_len acc x v); lia|].
  exists b. split; [assumption|]. rewrite app_length in Lb'. lia.
Qed.
Lemma pack_map_pk d : least (MMap d) = (let* hd := map_head (zlen d) in let* b := concatM pk d in Ok (hd ++ b)).
Proof. reflexivity. Qed.
Lemma arr_minimal f k n bs l r : minimal (unpack f) -> 0 <= n -> min_len (arr_head n) k -> bytes bs -> unpack_list (unpack f) (Z.to_nat n) bs = Ok (l, r) ->
  python_value (MArr l) /\ bytes r /\ exists p, least (MArr l) = Ok p /\ (length p + length r <= length bs + k)%nat.
Proof.
  intros IH Hn [hd [Eh Lh]] Hb H. apply (ulist_minimal _ IH) in H; [|assumption]. destruct H as [V [Hr [Ln [b [Eb Lb]]]]].
  split; [constructor; assumption|]. split; [assumption|]. exists (hd ++ b). cbn [pack least].
  replace (zlen l) with n by (unfold zlen; lia). rewrite Eh, Eb. split; [reflexivity|]. rewrite app_length. lia.
Qed.
Lemma map_minimal f k n bs d r : minimal (unpack f) -> 0 <= n -> (forall m, m <= n -> min_len (map_head m) k) -> bytes bs ->
  unpack_map (unpack f) (Z.to_nat n) [] bs = Ok (d, r) ->
  python_value (MMap d) /\ bytes r /\ exists p, least (MMap d) = Ok p /\ (length p + length r <= length bs + k)%nat.
Proof.
  intros IH Hn Hd Hb H. apply (umap_minimal _ IH _ _ _ _ _ []) in H; [|assumption|constructor|constructor|reflexivity].
  destruct H as [ND [V [Hr [Ln [b [Eb Lb]]]]]]. simpl length in *.
  split; [constructor; assumption|]. split; [assumption|]. destruct (Hd (zlen d)) as [hd [Eh Lh]]; [unfold zlen; lia|].
  exists (hd ++ b). rewrite pack_map_pk, Eh, Eb. split; [reflexivity|]. rewrite app_length. lia.
Qed.
Local Opaque be.
Lemma unpack_minimal f : minimal (unpack f).
Proof.
  induction f as [|f IH]; intros bs o r Hb H; [discriminate|]. destruct bs as [|b bs]; [discriminate|].
  inversion Hb as [|? ? Hb0 Hb']; subst. pose proof (classify_range b Hb0) as Hr. rewrite unpack_S in H. simpl length.
  destruct (classify b) as [z|n|n|n| |x|k| |k|k|k|k|k| |n|k|]; simpl in Hr; try discriminate H.
  - injection H as <- <-. split; [constructor|]. split; [assumption|]. destruct (int_min_small z Hr) as [p [E L]]. exists p. split; [assumption|lia].
  - destruct (unpack_map _ _ _ bs) as [[d r1]|] eqn:E; [|discriminate]. injection H as <- <-.
    apply (map_minimal f 1) in E; [|assumption|lia|intros m Hm; apply map_min; lia|assumption].
    destruct E as [V [Hr1 [p [Ep Lp]]]]. split; [assumption|]. split; [assumption|]. exists p. split; [assumption|lia].
  - destruct (unpack_list _ _ bs) as [[d r1]|] eqn:E; [|discriminate]. injection H as <- <-.
    apply (arr_minimal f 1) in E; [|assumption|lia|apply arr_min; lia|assumption].
    destruct E as [V [Hr1 [p [Ep Lp]]]]. split; [assumption|]. split; [assumption|]. exists p. split; [assumption|lia].
  - apply (str_minimal n 1) in H; [|lia|apply str_min; lia|assumption].
    destruct H as [V [Hr1 [p [Ep Lp]]]]. split; [assumption|]. split; [assumption|]. exists p. split; [assumption|lia].
  - injection H as <- <-. split; [constructor|]. split; [assumption|]. eexists. split; [reflexivity|]. simpl. lia.
  - injection H as <- <-. split; [constructor|]. split; [assumption|]. destruct x; (eexists; split; [reflexivity|]; simpl; lia).
  - destruct (read_uint k bs) as [[n r1]|] eqn:E; [|discriminate]. cbn [rbind] in H. destruct (take n r1) as [[x r2]|] eqn:E2; [|discriminate].
    injection H as <- <-. apply read_uint_ok in E; [|lia|assumption]. destruct E as [a [-> [La Rn]]]. apply bytes_app in Hb'. destruct Hb' as [_ Hb'].
    apply take_ok in E2. destruct E2 as [-> Lx]. specialize (Lx ltac:(lia)). apply bytes_app in Hb'. destruct Hb' as [Hx Hr2].
    split; [constructor; exact Hx|]. split; [assumption|].
    assert (M : min_len (bin_head n) (S (length a))).
    { unfold zlen in La. destruct Hr as [->|[->| ->]]; [assert (length a = 1)%nat by lia|assert (length a = 2)%nat by lia|assert (length a = 4)%nat by lia];
      replace (length a) with (Z.to_nat (Z.of_nat (length a))) by lia; rewrite La; apply bin_min; lia. }
    destruct M as [hd [Eh Lh]]. exists (hd ++ x). cbn [pack least]. rewrite Lx, Eh. split; [reflexivity|]. rewrite !app_length. lia.
  - destruct (read_uint 8 bs) as [[n r1]|] eqn:E; [|discriminate]. injection H as <- <-.
    apply read_uint_ok in E; [|lia|assumption]. destruct E as [a [-> [La Rn]]]. apply bytes_app in Hb'. destruct Hb' as [_ Hb'].
    split; [constructor; lia|]. split; [assumption|]. eexists. split; [reflexivity|]. cbn [length]. rewrite be_length, app_length. unfold zlen in La. lia.
  - destruct (read_uint k bs) as [[n r1]|] eqn:E; [|discriminate]. injection H as <- <-.
    apply read_uint_ok in E; [|lia|assumption]. destruct E as [a [-> [La Rn]]]. apply bytes_app in Hb'. destruct Hb' as [_ Hb'].
    split; [constructor|]. split; [assumption|].
    assert (M : min_len (pack_int n) (S (length a))).
    { replace (length a) with (Z.to_nat (zlen a)) by (unfold zlen; lia). rewrite La.
      destruct Hr as [->|[->|[->| ->]]]; [apply int_min_1|apply int_min_2|apply int_min_4|apply int_min_8]; lia. }
    destruct M as [p [Ep Lp]]. exists p. cbn [pack least]. split; [assumption|]. rewrite app_length. lia.
  - destruct (read_uint k bs) as [[n r1]|] eqn:E; [|discriminate]. injection H as <- <-.
    apply read_uint_ok in E; [|lia|assumption]. destruct E as [a [-> [La Rn]]]. apply bytes_app in Hb'. destruct Hb' as [_ Hb'].
    split; [constructor|]. split; [assumption|].
    assert (M : min_len (pack_int (to_signed k n)) (S (length a))).
    { replace (length a) with (Z.to_nat (zlen a)) by (unfold zlen; lia). rewrite La. unfold to_signed.
      destruct Hr as [->|[->|[->| ->]]];
      match goal with |- context [n <? ?b] => destruct (Z.ltb_spec n b) end; [apply int_min_1|apply int_min_1|apply int_min_2|apply int_min_2|apply int_min_4|apply int_min_4|apply int_min_8|apply int_min_8]; lia. }
    destruct M as [p [Ep Lp]]. exists p. cbn [pack least]. split; [assumption|]. rewrite app_length. lia.
  - destruct (read_uint k bs) as [[n r1]|] eqn:E; [|discriminate]. cbn [rbind] in H.
    apply read_uint_ok in E; [|lia|assumption]. destruct E as [a [-> [La Rn]]]. apply bytes_app in Hb'. destruct Hb' as [_ Hb'].
    apply (str_minimal n (S (length a))) in H; [|lia| |assumption].
    + destruct H as [V [Hr1 [p [Ep Lp]]]]. split; [assumption|]. split; [assumption|]. exists p. split; [assumption|]. rewrite app_length. lia.
    + replace (length a) with (Z.to_nat (zlen a)) by (unfold zlen; lia). rewrite La. destruct Hr as [->|[->| ->]]; apply str_min; lia.
  - destruct (read_uint k bs) as [[n r1]|] eqn:E; [|discriminate]. cbn [rbind] in H.
    destruct (unpack_list _ _ r1) as [[d r2]|] eqn:E2; [|discriminate]. injection H as <- <-.
    apply read_uint_ok in E; [|lia|assumption]. destruct E as [a [-> [La Rn]]]. apply bytes_app in Hb'. destruct Hb' as [_ Hb'].
    apply (arr_minimal f (S (length a))) in E2; [|assumption|lia| |assumption].
    + destruct E2 as [V [Hr1 [p [Ep Lp]]]]. split; [assumption|]. split; [assumption|]. exists p. split; [assumption|]. rewrite app_length. lia.
    + replace (length a) with (Z.to_nat (zlen a)) by (unfold zlen; lia). rewrite La. destruct Hr as [->| ->]; apply arr_min; lia.
  - destruct (read_uint k bs) as [[n r1]|] eqn:E; [|discriminate]. cbn [rbind] in H.
    destruct (unpack_map _ _ _ r1) as [[d r2]|] eqn:E2; [|discriminate]. injection H as <- <-.
    apply read_uint_ok in E; [|lia|assumption]. destruct E as [a [-> [La Rn]]]. apply bytes_app in Hb'. destruct Hb' as [_ Hb'].
    apply (map_minimal f (S (length a))) in E2; [|assumption|lia| |assumption].
    + destruct E2 as [V [Hr1 [p [Ep Lp]]]]. split; [assumption|]. split; [assumption|]. exists p. split; [assumption|]. rewrite app_length. lia.
    + intros m Hm. replace (length a) with (Z.to_nat (zlen a)) by (unfold zlen; lia). rewrite La. destruct Hr as [->| ->]; apply map_min; lia.
  - destruct (read_uint 4 bs) as [[n r1]|] eqn:E; [|discriminate]. injection H as <- <-.
    apply read_uint_ok in E; [|lia|assumption]. destruct E as [a [-> [La Rn]]]. apply bytes_app in Hb'. destruct Hb' as [_ Hb'].
    split; [constructor; pose proof (single_range n Rn); lia|]. split; [assumption|]. eexists. split; [reflexivity|]. cbn [length]. rewrite be_length, app_length. unfold zlen in La. lia.
Qed.
(** the packing is longer than the least by four bytes for each float *)
Lemma concat_least {A} (f g : A -> res (list N)) (w : A -> nat) l :
  Forall (fun x => forall q, g x = Ok q -> exists p, f x = Ok p /\ length p = (length q + 4 * w x)%nat) l ->
  forall q, concatM g l = Ok q -> exists p, concatM f l = Ok p /\ length p = (length q + 4 * list_sum (map w l))%nat.
Proof.
  induction 1 as [|x l Hx Hl IH]; intros q Hq; cbn [concatM] in *; [apply Ok_inj in Hq; subst q; exists []; split; reflexivity|].
  destruct (g x) as [a|] eqn:E; [|discriminate]. cbn [rbind] in Hq. destruct (concatM g l) as [b|] eqn:Eb; [|discriminate]. apply Ok_inj in Hq. subst q.
  destruct (Hx a eq_refl) as [p [-> Lp]]. destruct (IH b eq_refl) as [p' [-> Lp']]. cbn [rbind]. eexists. split; [reflexivity|]. rewrite !app_length. cbn [map]. change (list_sum (w x :: map w l)) with (w x + list_sum (map w l))%nat. lia.
Qed.
Lemma least_pack o : forall q, least o = Ok q -> exists p, pack o = Ok p /\ length p = (length q + 4 * floats o)%nat.
Proof.
  induction o using mobj_rect'; intros q Hq; cbn [least] in Hq; try (exists q; split; [exact Hq|cbn [floats]; lia]).
  - apply Ok_inj in Hq. subst q. eexists. split; [reflexivity|]. cbn [length floats]. rewrite !be_length. lia.
  - destruct (arr_head (zlen l)) as [hd|] eqn:E; [|discriminate]. cbn [rbind] in Hq. destruct (concatM least l) as [b|] eqn:Eb; [|discriminate]. apply Ok_inj in Hq. subst q.
    destruct (concat_least pack least floats l H b Eb) as [p [Ep Lp]]. cbn [pack]. rewrite E, Ep. cbn [rbind]. eexists. split; [reflexivity|]. rewrite !app_length. cbn [floats]. lia.
  - destruct (map_head (zlen d)) as [hd|] eqn:E; [|discriminate]. cbn [rbind] in Hq.
    match type of Hq with (let* b := ?g in _) = _ => destruct g as [b|] eqn:Eb end; [|discriminate]. apply Ok_inj in Hq. subst q.
    assert (K : Forall (fun kv : pystr * mobj => forall q, (let* k := pack_str (fst kv) in let* v := least (snd kv) in Ok (k ++ v)) = Ok q ->
              exists p, (let* k := pack_str (fst kv) in let* v := pack (snd kv) in Ok (k ++ v)) = Ok p /\ length p = (length q + 4 * floats (snd kv))%nat) d).
    { clear -H. induction d as [|[k v] d IH]; [constructor|]. cbn [map snd] in H. inversion H as [|? ? H1 H2]; subst. constructor; [|auto].
      cbn [fst snd]. intros q Hq. destruct (pack_str k) as [a|]; [|discriminate]. cbn [rbind] in Hq |- *. destruct (least v) as [b|]; [|discriminate]. apply Ok_inj in Hq. subst q.
      destruct (H1 b eq_refl) as [p [-> Lp]]. cbn [rbind]. eexists. split; [reflexivity|]. rewrite !app_length. lia. }
    destruct (concat_least _ _ (fun kv => floats (snd kv)) d K b Eb) as [p [Ep Lp]].
    cbn [pack]. rewrite E. cbn [rbind]. rewrite Ep. cbn [rbind]. eexists. split; [reflexivity|]. rewrite !app_length. cbn [floats]. lia.
Qed.

(** ** statements for the property file *)
Lemma pack_unpack o rest : python_value o -> fits o -> exists p, pack o = Ok p /\ unpack1 (p ++ rest) = Ok (o, rest).
Proof. intros V F. apply pack_fits in F. destruct F as [p Hp]. exists p. split; [assumption|]. apply unpack1_pack; assumption. Qed.
Lemma pack_prefix_free a b p q r t : python_value a -> python_value b -> pack a = Ok p -> pack b = Ok q -> p ++ r = q ++ t -> a = b /\ r = t.
Proof.
  intros Va Vb Ha Hb E. pose proof (unpack1_pack a p r Va Ha) as H1. pose proof (unpack1_pack b q t Vb Hb) as H2. rewrite E, H2 in H1.
  split; congruence.
Qed.
Lemma pack_shortest bs o r p : bytes bs -> unpack1 bs = Ok (o, r) -> pack o = Ok p -> (length p + length r <= length bs + 4 * floats o)%nat.
Proof.
  intros Hb H Hp. apply unpack_minimal in H; [|assumption]. destruct H as [_ [_ [q [E L]]]]. apply least_pack in E. destruct E as [p' [E Lp]]. rewrite Hp in E. apply Ok_inj in E. subst p'. lia.
Qed.
Lemma unpack_stable bs o r : bytes bs -> unpack1 bs = Ok (o, r) -> exists p, pack o = Ok p /\ forall rest, unpack1 (p ++ rest) = Ok (o, rest).
Proof.
  intros Hb H. apply unpack_minimal in H; [|assumption]. destruct H as [V [_ [q [E L]]]]. apply least_pack in E. destruct E as [p [E Lp]]. exists p. split; [assumption|]. intros rest. apply unpack1_pack; assumption.
Qed.
