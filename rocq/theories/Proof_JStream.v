From Verif Require Import PyBase PyBaseFacts Model_Heap Model_Msgpack Model_Lazy Model_Collection Model_Boundary Model_JStream
  Spec_Msgpack Spec_Cut Spec_Collection Spec_Boundary Spec_AnyFile Spec_JStream Proof_Msgpack Proof_Cut Proof_Collection Proof_Collection2 Proof_AnyFile.
Local Open Scope Z_scope.

(** ** the two writers in step *)
Section Writers.
Context (ahead : nat) (hdr : list N).
(** before the first block, and after *)
Record step (some : bool) (j : dwriter) (w : writer) : Prop := {
  st_block : dw_block j = w_block w;
  st_count : dw_count j = w_count w;
  st_comp : dw_comp j = w_comp w;
  st_per : dw_per j = w_per w;
  st_pos : 0 <= w_count w;
  st_some : 0 < w_count w -> some = true;
  st_phase : (dw_out j = [OWrite (firstn ahead hdr)] /\ dw_pend j = skipn ahead hdr /\ out_bytes (w_out w) = hdr /\ split_counts 0 (w_out w) = [zlen hdr] /\
              (some = true -> 0 < w_count w)) \/
             (dw_pend j = [] /\ some = true /\ out_bytes (dw_out j) = out_bytes (w_out w) /\
              exists l, split_counts 0 (dw_out j) = zlen (firstn ahead hdr) :: l /\ split_counts 0 (w_out w) = zlen hdr :: l ++ [zlen (out_bytes (w_out w))]) }.
Lemma step_flushblock some j w : step some j w -> 0 < w_count w -> some = true ->
  match writer_flush w with
  | (w1, Ok _) => exists j1, dw_flushblock j = (j1, Ok tt) /\ step true j1 w1 /\ w_count w1 = 0
  | (w1, Err e) => exists j1, dw_flushblock j = (j1, Err e)
  end.
Proof.
  intros [H1 H2 H3 H4 H5 H7 H6] C T. unfold writer_flush, dw_flushblock. rewrite H1, H3. destruct (Z.gtb_spec (w_count w) 0); [|lia].
  destruct (pack (MBin (w_comp w (w_block w)))) as [p|e]; [|eauto]. eexists. split; [reflexivity|]. split; [|reflexivity].
  constructor; cbn [dw_block w_block dw_count w_count dw_comp w_comp dw_per w_per dw_out w_out dw_pend]; auto; [lia|]. right. split; [reflexivity|]. split; [reflexivity|].
  assert (X : forall q, out_bytes (w_out w ++ [OWrite q; OSplit]) = out_bytes (w_out w) ++ q) by (intros q; rewrite out_bytes_app; cbn; rewrite !app_nil_r; reflexivity).
  assert (Y : forall q, out_bytes (dw_out j ++ [OSplit; OWrite q]) = out_bytes (dw_out j) ++ q) by (intros q; rewrite out_bytes_app; cbn; rewrite !app_nil_r; reflexivity).
  rewrite X, Y, !split_counts_app. cbn [split_counts]. destruct H6 as [(P1 & P2 & P3 & P4 & P5)|(P1 & P2 & P3 & l & P4 & P5)].
  - rewrite P1, P2, P3, P4. cbn [split_counts out_bytes map List.concat]. rewrite !app_nil_r. split; [rewrite app_assoc, firstn_skipn; reflexivity|].
    exists []. split; [reflexivity|]. cbn [app]. rewrite zlen_app. reflexivity.
  - rewrite P1, P3, P4, P5. split; [reflexivity|]. exists (l ++ [zlen (out_bytes (w_out w))]). split; [cbn [app]; do 2 f_equal|].
    cbn [app]. rewrite zlen_app. do 2 f_equal.
Qed.
Lemma step_flush some j w : step some j w ->
  match writer_flush w with
  | (w1, Ok _) => exists j1, dw_flush j = (j1, Ok tt) /\ step some j1 w1 /\ w_count w1 = 0
  | (w1, Err e) => exists j1, dw_flush j = (j1, Err e)
  end.
Proof.
  intros S. unfold dw_flush. rewrite (st_count _ _ _ S). destruct (Z.ltb_spec 0 (w_count w)) as [C|C].
  - rewrite (st_some _ _ _ S C) in S |- *. apply (step_flushblock _ _ _ S C eq_refl).
  - unfold writer_flush. destruct (Z.gtb_spec (w_count w) 0); [lia|]. pose proof (st_pos _ _ _ S). exists j. split; [reflexivity|]. split; [exact S|lia].
Qed.
Lemma step_add some j w d : step some j w ->
  match writer_add w d with
  | (w1, Ok _) => exists j1, dw_write j d = (j1, Ok tt) /\ step true j1 w1
  | (w1, Err e) => exists j1, dw_write j d = (j1, Err e)
  end.
Proof.
  intros [H1 H2 H3 H4 H5 H7 H6]. unfold writer_add, dw_write. destruct (pack (MBin d)) as [p|e]; [|eauto]. cbv zeta.
  cbn [dw_count w_count dw_per w_per]. rewrite H1, H2, H3, H4.
  assert (S : step true (mkDW (dw_out j) (dw_pend j) (w_block w ++ p) (w_count w + 1) (w_comp w) (w_per w)) (mkW (w_out w) (w_block w ++ p) (w_count w + 1) (w_comp w) (w_per w))).
  { constructor; cbn [dw_block w_block dw_count w_count dw_comp w_comp dw_per w_per dw_out w_out dw_pend]; auto; [lia|].
    destruct H6 as [(P1 & P2 & P3 & P4 & P5)|(P1 & P2 & P3 & P4)]; [left; repeat split; auto; lia|right; auto]. }
  destruct (w_count w + 1 =? w_per w); [|eauto].
  pose proof (step_flushblock _ _ _ S ltac:(cbn [w_count]; lia) eq_refl) as F. destruct (writer_flush _) as [w1 [[]|e]]; [|exact F]. destruct F as (j1 & F1 & F2 & _). eauto.
Qed.
Lemma step_run ops : forall some j w h h1 w1 r, step some j w -> writer_run h w (map py_op ops) = (h1, w1, r) ->
  exists j1, dw_run j ops = (j1, r) /\ (r = Ok tt -> step (some || writes ops) j1 w1 /\ w_count w1 = 0).
Proof.
  induction ops as [|[d|] ops IH]; intros some j w h h1 w1 r S E; cbn [map py_op writer_run dw_run] in *.
  - pose proof (step_flush _ _ _ S) as F. destruct (writer_flush w) as [w2 [[]|e]]; injection E as <- <- <-.
    + destruct F as (j1 & F1 & F2 & F3). exists j1. unfold writes. cbn [existsb]. rewrite orb_false_r. auto.
    + destruct F as (j1 & F1). exists j1. split; [exact F1|discriminate].
  - unfold writer_write in E. cbn [wdoc_data md_raw] in E. pose proof (step_add _ _ _ d S) as F. destruct (writer_add w d) as [w2 [[]|e]].
    + destruct F as (j1 & F1 & F2). rewrite F1. destruct (IH _ _ _ _ _ _ _ F2 E) as (j2 & E2 & Q). exists j2. split; [exact E2|]. unfold writes. cbn [existsb]. rewrite orb_true_r. exact Q.
    + destruct F as (j1 & F1). rewrite F1. injection E as <- <- <-. exists j1. split; [reflexivity|discriminate].
  - pose proof (step_flush _ _ _ S) as F. destruct (writer_flush w) as [w2 [[]|e]].
    + destruct F as (j1 & F1 & F2 & _). rewrite F1. destruct (IH _ _ _ _ _ _ _ F2 E) as (j2 & E2 & Q). exists j2. split; [exact E2|exact Q].
    + destruct F as (j1 & F1). rewrite F1. injection E as <- <- <-. exists j1. split; [reflexivity|discriminate].
Qed.
End Writers.

Lemma header_packs name per a b : pack (MStr name) = Ok a -> pack (MInt per) = Ok b -> header name per = dmf1 ++ a ++ b ++ [0xC2%N].
Proof. unfold header. intros -> ->. reflexivity. Qed.
Lemma same_bytes ahead c per h ops w h1 w1 r : 1 <= per -> writer_open c per = Ok w -> writer_run h w (map py_op ops) = (h1, w1, r) ->
  exists j j1, dw_open ahead (c_name c) (c_comp c) per = Ok j /\ dw_run j ops = (j1, r) /\
  (r = Ok tt -> out_bytes (dw_out j1) = if writes ops then out_bytes (w_out w1) else firstn ahead (header (c_name c) per)) /\
  (r = Ok tt -> writes ops = true -> exists l, split_counts 0 (dw_out j1) = zlen (firstn ahead (header (c_name c) per)) :: l /\
     split_counts 0 (w_out w1) = zlen (header (c_name c) per) :: l ++ [zlen (out_bytes (w_out w1))]).
Proof.
  intros P O R. unfold writer_open in O. unfold dw_open. destruct (Z.ltb_spec per 1); [lia|].
  destruct (pack (MStr (c_name c))) as [a|] eqn:Ea; [|discriminate]. destruct (pack (MInt per)) as [b|] eqn:Eb; [|discriminate]. cbn [rbind pack] in *.
  apply Ok_inj in O. rewrite (header_packs _ _ _ _ Ea Eb). set (hdr := dmf1 ++ a ++ b ++ [0xC2%N]) in *.
  assert (S : step ahead hdr false (mkDW [OWrite (firstn ahead hdr)] (skipn ahead hdr) [] 0 (c_comp c) per) w).
  { subst w. constructor; cbn [dw_block w_block dw_count w_count dw_comp w_comp dw_per w_per dw_out w_out dw_pend]; auto; try lia.
    left. split; [reflexivity|]. split; [reflexivity|]. split; [|split; [|discriminate]].
    - unfold out_bytes. cbn [map List.concat]. rewrite app_nil_r. reflexivity.
    - cbn [split_counts]. unfold hdr. rewrite !zlen_app. f_equal. lia. }
  destruct (step_run ahead hdr ops _ _ _ _ _ _ _ S R) as (j1 & E & Q). cbn [orb] in Q. eexists _, j1. split; [reflexivity|]. split; [exact E|].
  split; intros ->; destruct (Q eq_refl) as ([H1 H2 H3 H4 H5 H7 H6] & C); destruct H6 as [(P1 & P2 & P3 & P4 & P5)|(P1 & P2 & P3 & P4)].
  - destruct (writes ops); [specialize (P5 eq_refl); lia|]. rewrite P1. cbn. apply app_nil_r.
  - rewrite P2. exact P3.
  - intros T. specialize (P5 T). lia.
  - intros T. exact P4.
Qed.

(** ** a cut header *)
Lemma header_cut name per g n : str_fits name -> - 9223372036854775808 <= per < 18446744073709551616 -> (n < length (header name per))%nat ->
  exists e, reader_open g (firstn n (header name per)) = Err e.
Proof.
  intros F1 F2 L. destruct (reader_open g (firstn n (header name per))) as [r|e] eqn:E; [|eauto]. exfalso.
  assert (E1 : exists a, pack (MStr name) = Ok a) by (apply pack_fits; constructor; exact F1).
  assert (E2 : exists b, pack (MInt per) = Ok b) by (apply pack_fits; constructor; exact F2).
  destruct E1 as [a E1], E2 as [b E2]. rewrite (header_packs _ _ _ _ E1 E2) in *.
  destruct (open_any _ _ _ E) as (p & body & (nm & c & pr & flag & f1 & f2 & f3 & M & -> & U1 & _ & _ & U2 & U3 & _) & _).
  set (hdr := dmf1 ++ a ++ b ++ [194%N]) in *.
  assert (N4 : (4 <= n)%nat).
  { apply (f_equal (@length N)) in M. rewrite !firstn_length in M. change (length (s "Dmf1")) with 4%nat in M. lia. }
  pose proof (ext_unpack1 _ (skipn n hdr) _ _ U1) as V1. pose proof (ext_unpack1 _ (skipn n hdr) _ _ U2) as V2. pose proof (ext_unpack1 _ (skipn n hdr) _ _ U3) as V3.
  assert (Q : skipn 4 (firstn n hdr) ++ skipn n hdr = a ++ b ++ [194%N]).
  { transitivity (skipn 4 hdr); [|reflexivity]. rewrite <- (firstn_skipn n hdr) at 3. rewrite skipn_app. f_equal. rewrite firstn_length.
    replace (4 - Nat.min n (length hdr))%nat with O by lia. reflexivity. }
  rewrite Q, (unpack1_pack _ _ _ (pv_str name) E1) in V1. apply Ok_inj in V1. apply (f_equal snd) in V1. cbn [snd] in V1. rewrite <- V1 in V2.
  rewrite (unpack1_pack _ _ _ (pv_int per) E2) in V2. apply Ok_inj in V2. apply (f_equal snd) in V2. cbn [snd] in V2. rewrite <- V2 in V3.
  change (unpack1 [194%N]) with (@Ok (mobj * list N) (MBool false, [])) in V3. apply Ok_inj in V3. apply (f_equal snd) in V3. cbn [snd] in V3.
  destruct (app_eq_nil _ _ (eq_sym V3)) as [_ X]. apply (f_equal (@length N)) in X. rewrite skipn_length in X. change (length (@nil N)) with O in X. lia.
Qed.
Lemma java_file ahead name comp dec per h ops j j1 : dw_open ahead name comp per = Ok j -> dw_run j ops = (j1, Ok tt) ->
  1 <= per /\ str_fits name /\ per < 18446744073709551616 /\
  (writes ops = true -> is_file (mkCodec name comp dec) per h (map py_op ops) (out_bytes (dw_out j1))) /\
  (writes ops = false -> out_bytes (dw_out j1) = firstn ahead (header name per)) /\
  (writes ops = true -> exists w h1 w1 l, writer_open (mkCodec name comp dec) per = Ok w /\ writer_run h w (map py_op ops) = (h1, w1, Ok tt) /\
     split_counts 0 (dw_out j1) = zlen (firstn ahead (header name per)) :: l /\
     split_counts 0 (w_out w1) = zlen (header name per) :: l ++ [zlen (out_bytes (w_out w1))]).
Proof.
  intros O R. pose proof O as O'. unfold dw_open in O'. destruct (Z.ltb_spec per 1) as [|P]; [discriminate|].
  assert (W : exists w, writer_open (mkCodec name comp dec) per = Ok w).
  { unfold writer_open. cbn [c_name c_comp]. destruct (pack (MStr name)); [|discriminate]. destruct (pack (MInt per)); [|discriminate]. cbn [rbind pack]. eauto. }
  destruct W as [w W]. destruct (writer_run h w (map py_op ops)) as [[h1 w1] r] eqn:E.
  destruct (same_bytes ahead _ per h ops w h1 w1 r P W E) as (j' & j1' & A & B & C & D). cbn [c_name c_comp] in *.
  rewrite A in O. apply Ok_inj in O. subst j'. rewrite R in B. injection B as <- <-. specialize (C eq_refl). specialize (D eq_refl).
  destruct (open_ok _ _ _ W) as (_ & F1 & F2). cbn [c_name] in *.
  split; [exact P|]. split; [exact F1|]. split; [lia|]. split; [|split].
  - intros T. rewrite T in C. exists w, h1, w1. auto.
  - intros T. rewrite T in C. exact C.
  - intros T. destruct (D T) as (l & L1 & L2). exists w, h1, w1, l. auto.
Qed.

(** ** what the unpackers read *)
Lemma mu_uint_ok k bs x : read_uint k bs = Ok x -> mu_uint k bs = Ok x.
Proof. unfold mu_uint. intros ->. reflexivity. Qed.
Lemma mu_int_of bs v r : unpack1 bs = Ok (MInt v, r) -> mu_int bs = if (v <? -2147483648) || (2147483647 <? v) then Err OverflowError else Ok (v, r).
Proof.
  unfold unpack1. destruct bs as [|b bs]; [discriminate|]. rewrite unpack_S. unfold mu_int, mu_uint.
  destruct (classify b) as [z| | |n| | | | | | | | | | | |  | ]; intros H; try discriminate;
    try (unfold unpack_str in H; destruct (take n bs) as [[? ?]|]; [|discriminate]; cbn [rbind] in H; destruct (utf8_decode l); discriminate).
  - injection H as -> ->. reflexivity.
  - destruct (unpack_map _ _ _ _) as [[? ?]|]; discriminate.
  - destruct (unpack_list _ _ _) as [[? ?]|]; discriminate.
  - destruct (read_uint k bs) as [[? q]|]; [|discriminate]. cbn [rbind] in H. destruct (take z q) as [[? ?]|]; discriminate.
  - destruct (read_uint 8 bs) as [[? ?]|]; discriminate.
  - destruct (read_uint k bs) as [[? ?]|]; [|discriminate]. cbn [rbind] in *. injection H as -> ->. reflexivity.
  - destruct (read_uint k bs) as [[? ?]|]; [|discriminate]. cbn [rbind] in *. injection H as <- ->. reflexivity.
  - destruct (read_uint k bs) as [[? q]|]; [|discriminate]. cbn [rbind] in H. unfold unpack_str in H. destruct (take z q) as [[? ?]|]; [|discriminate]. cbn [rbind] in H. destruct (utf8_decode l); discriminate.
  - destruct (read_uint k bs) as [[? q]|]; [|discriminate]. cbn [rbind] in H. destruct (unpack_list _ _ _) as [[? ?]|]; discriminate.
  - destruct (read_uint k bs) as [[? q]|]; [|discriminate]. cbn [rbind] in H. destruct (unpack_map _ _ _ _) as [[? ?]|]; discriminate.
  - destruct (read_uint 4 bs) as [[? ?]|]; discriminate.
Qed.
Lemma mu_image x rest : jsmall x -> mu_bytes (image x ++ rest) = Ok (x, rest).
Proof.
  intros S. unfold jsmall in S. assert (S' : small x) by (unfold small; lia). pose proof (image_pack x S') as P. cbn [pack] in P. unfold bin_head in P. pose proof (zlen_nonneg x) as Z0.
  unfold mu_bytes, mu_header. 
  destruct (Z.ltb_spec (zlen x) (2 ^ 8)); [|destruct (Z.ltb_spec (zlen x) (2 ^ 16)); [|destruct (Z.ltb_spec (zlen x) (2 ^ 32)); [|discriminate]]];
    cbn [rbind] in P; apply Ok_inj in P; rewrite <- P, <- !app_comm_cons, <- app_assoc.
  - change (classify 0xC4) with (TgBin 1). cbv beta iota. rewrite (mu_uint_ok _ _ _ (read1 (zlen x) (x ++ rest) ltac:(lia))). cbn [rbind].
    destruct (Z.ltb_spec 2147483647 (zlen x)); [lia|]. cbn [rbind]. unfold mu_payload. rewrite take_app by reflexivity. reflexivity.
  - change (classify 0xC5) with (TgBin 2). cbv beta iota. rewrite (mu_uint_ok _ _ _ (read2 (zlen x) (x ++ rest) ltac:(lia))). cbn [rbind].
    destruct (Z.ltb_spec 2147483647 (zlen x)); [lia|]. cbn [rbind]. unfold mu_payload. rewrite take_app by reflexivity. reflexivity.
  - change (classify 0xC6) with (TgBin 4). cbv beta iota. rewrite (mu_uint_ok _ _ _ (read4 (zlen x) (x ++ rest) ltac:(lia))). cbn [rbind].
    destruct (Z.ltb_spec 2147483647 (zlen x)); [lia|]. cbn [rbind]. unfold mu_payload. rewrite take_app by reflexivity. reflexivity.
Qed.
Lemma mu_name name a rest : pack (MStr name) = Ok a -> exists b, utf8_encode name = Ok b /\ (zlen b < 2147483648 -> mu_bytes (a ++ rest) = Ok (b, rest)) /\ mu_int (a ++ rest) = Err TypeError.
Proof.
  cbn [pack]. unfold pack_str. destruct (utf8_encode name) as [b|] eqn:E; [|discriminate]. cbn [rbind]. intros H. exists b. split; [reflexivity|].
  pose proof (zlen_nonneg b) as Z0. unfold str_head in H. unfold mu_bytes, mu_header, mu_int.
  destruct (Z.ltb_spec (zlen b) 32); [|destruct (Z.ltb_spec (zlen b) (2 ^ 8)); [|destruct (Z.ltb_spec (zlen b) (2 ^ 16)); [|destruct (Z.ltb_spec (zlen b) (2 ^ 32)); [|discriminate]]]];
    cbn [rbind] in H; apply Ok_inj in H; rewrite <- H, <- !app_comm_cons, <- app_assoc.
  - rewrite classify_str by lia. cbn [app rbind]. split; [|reflexivity]. intros _. unfold mu_payload. rewrite take_app by reflexivity. reflexivity.
  - change (classify 0xD9) with (TgStrN 1). cbv beta iota. split; [|reflexivity]. intros S. rewrite (mu_uint_ok _ _ _ (read1 (zlen b) (b ++ rest) ltac:(lia))). cbn [rbind].
    destruct (Z.ltb_spec 2147483647 (zlen b)); [lia|]. cbn [rbind]. unfold mu_payload. rewrite take_app by reflexivity. reflexivity.
  - change (classify 0xDA) with (TgStrN 2). cbv beta iota. split; [|reflexivity]. intros S. rewrite (mu_uint_ok _ _ _ (read2 (zlen b) (b ++ rest) ltac:(lia))). cbn [rbind].
    destruct (Z.ltb_spec 2147483647 (zlen b)); [lia|]. cbn [rbind]. unfold mu_payload. rewrite take_app by reflexivity. reflexivity.
  - change (classify 0xDB) with (TgStrN 4). cbv beta iota. split; [|reflexivity]. intros S. rewrite (mu_uint_ok _ _ _ (read4 (zlen b) (b ++ rest) ltac:(lia))). cbn [rbind].
    destruct (Z.ltb_spec 2147483647 (zlen b)); [lia|]. cbn [rbind]. unfold mu_payload. rewrite take_app by reflexivity. reflexivity.
Qed.
