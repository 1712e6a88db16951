From Verif Require Import PyBase PyBaseFacts Model_Heap Model_Msgpack Model_Document Model_Codec Model_Lazy Model_Collection Spec_Layer Spec_Msgpack Spec_Codec Spec_Lazy Spec_Collection
  Spec_Document Model_Boundary Proof_Msgpack Proof_Document Proof_Codec2 Proof_Lazy Proof_Lazy2 Proof_Collection Proof_Layer Model_Layer Spec_Boundary.
Local Open Scope Z_scope.

(** ** opening *)
Lemma open_header g name per c rest : str_fits name -> - 9223372036854775808 <= per < 18446744073709551616 ->
  get_codec g name false = Ok (Some c) ->
  exists r, reader_open g (header name per ++ rest) = Ok r /\ r_file r = header name per ++ rest /\ r_codec r = c_decomp c /\
    u_rest (r_unp r) = rest /\ u_tell (r_unp r) + r_read r = zlen (header name per) /\ r_block r = None /\ r_per r = MInt per.
Proof.
  intros F1 F2 G. assert (E1 : exists a, pack (MStr name) = Ok a) by (apply pack_fits; constructor; exact F1).
  assert (E2 : exists b, pack (MInt per) = Ok b) by (apply pack_fits; constructor; exact F2).
  destruct E1 as [a E1], E2 as [b E2]. unfold header. rewrite E1, E2. rewrite <- !app_assoc.
  unfold reader_open. replace (firstn 4 (dmf1 ++ a ++ b ++ [194%N] ++ rest)) with dmf1 by reflexivity. change (list_eqb N.eqb dmf1 dmf1) with true. cbn [negb].
  replace (skipn 4 (dmf1 ++ a ++ b ++ [194%N] ++ rest)) with (a ++ b ++ [194%N] ++ rest) by reflexivity.
  unfold u_open, u_next1. cbn [u_rest u_tell]. rewrite (unpack1_pack _ _ (b ++ [194%N] ++ rest) (pv_str name) E1). cbn [rbind codec_of]. rewrite G. cbn [rbind u_rest u_tell].
  rewrite (unpack1_pack _ _ ([194%N] ++ rest) (pv_int per) E2). cbn [rbind u_rest u_tell].
  rewrite (unpack1_pack (MBool false) [194%N] rest (pv_bool false) eq_refl). cbn [rbind u_rest u_tell truth].
  eexists. split; [reflexivity|]. cbn [r_file r_codec r_unp r_read r_block r_per u_rest u_tell].
  repeat split; auto. rewrite !zlen_app. change (zlen dmf1) with 4. change (zlen [194%N]) with 1. lia.
Qed.
Lemma at_start hdr comp decomp bs tail r : r_file r = hdr ++ blocks_bytes comp bs ++ tail -> r_codec r = decomp ->
  u_rest (r_unp r) = blocks_bytes comp bs ++ tail -> u_tell (r_unp r) + r_read r = zlen hdr -> r_block r = None ->
  base hdr comp decomp bs tail r 0 /\ at_doc hdr comp decomp bs tail r 0.
Proof.
  intros H1 H2 H3 H4 H5. assert (base hdr comp decomp bs tail r 0).
  { constructor; auto; [lia|]. unfold block_at. cbn. lia. }
  split; [assumption|]. apply at_none with (next := O); auto.
Qed.

(** ** writing *)
Lemma storable_acceptable comp bs : storable comp bs -> acceptable comp bs.
Proof. intros H. apply Forall_impl with (2 := H). intros ds (_ & A & B). auto. Qed.
Lemma split_counts_app : forall a n b, split_counts n (a ++ b) = split_counts n a ++ split_counts (n + zlen (out_bytes a)) b.
Proof.
  induction a as [|[x|] a IH]; intros n b; cbn [split_counts app].
  - unfold out_bytes, zlen. cbn. rewrite Z.add_0_r. reflexivity.
  - rewrite IH. unfold out_bytes. cbn [map List.concat]. rewrite zlen_app, Z.add_assoc. reflexivity.
  - rewrite IH. reflexivity.
Qed.
Lemma block_at_done hdr comp done b : map (block_at hdr comp (done ++ [b])) (seq 0 (S (length (done ++ [b])))) =
  map (block_at hdr comp done) (seq 0 (S (length done))) ++ [zlen hdr + zlen (blocks_bytes comp (done ++ [b]))].
Proof.
  rewrite app_length, Nat.add_1_r. rewrite (seq_S (S (length done))), map_app. cbn [map plus]. f_equal.
  - apply map_ext_in. intros i I. apply in_seq in I. unfold block_at. rewrite firstn_app. replace (i - length done)%nat with 0%nat by lia. cbn [firstn]. rewrite app_nil_r. reflexivity.
  - unfold block_at. rewrite firstn_all2; [reflexivity|]. rewrite app_length. simpl. lia.
Qed.
Record writing (w : writer) (hdr : list N) (comp : list N -> list N) (per : Z) (done : list (list (list N))) (cur : list (list N)) : Prop := {
  wr_out : out_bytes (w_out w) = hdr ++ blocks_bytes comp done;
  wr_block : w_block w = block_bytes cur;
  wr_count : w_count w = zlen cur;
  wr_comp : w_comp w = comp;
  wr_per : w_per w = per;
  wr_splits : split_counts 0 (w_out w) = map (block_at hdr comp done) (seq 0 (S (length done))) }.
Definition closed (cur : list (list N)) : list (list (list N)) := match cur with [] => [] | _ => [cur] end.
Lemma zlen_nil_iff {A} (l : list A) : zlen l <= 0 -> l = [].
Proof. destruct l; [auto|]. unfold zlen. simpl length. lia. Qed.
Lemma out_bytes_app a b : out_bytes (a ++ b) = out_bytes a ++ out_bytes b.
Proof. unfold out_bytes. rewrite map_app, concat_app. reflexivity. Qed.
Lemma pack_bin_ok x p : pack (MBin x) = Ok p -> small x /\ p = image x.
Proof.
  intros H. split; [|unfold image; rewrite H; reflexivity]. assert (F : fits (MBin x)) by (apply pack_fits; eauto). inversion F; assumption.
Qed.
Lemma flush_ok w hdr comp per done cur w1 : writing w hdr comp per done cur -> writer_flush w = (w1, Ok tt) ->
  writing w1 hdr comp per (done ++ closed cur) [] /\ Forall (fun ds => small (comp (block_bytes ds))) (closed cur).
Proof.
  intros [H1 H2 H3 H4 H5 H6] E. unfold writer_flush in E. destruct (Z.gtb_spec (w_count w) 0) as [G|G].
  - destruct (pack (MBin (w_comp w (w_block w)))) as [p|] eqn:P; [|discriminate]. injection E as <-. apply pack_bin_ok in P. destruct P as [S ->].
    destruct cur as [|d cur]; [unfold zlen in H3; simpl in H3; lia|]. cbn [closed]. split.
    + constructor; cbn [w_out w_block w_count w_comp w_per]; auto.
      * rewrite out_bytes_app, H1, blocks_bytes_app, <- app_assoc, H4, H2. reflexivity.
      * rewrite split_counts_app, H6, block_at_done. f_equal. cbn [split_counts]. rewrite H1, H4, H2. rewrite blocks_bytes_app, !zlen_app. unfold blocks_bytes at 3. cbn. rewrite app_nil_r. f_equal. lia.
    + constructor; [|constructor]. rewrite <- H2, <- H4. exact S.
  - injection E as <-. assert (cur = []) by (apply zlen_nil_iff; lia). subst cur. cbn [closed]. rewrite app_nil_r. split; [constructor; auto|constructor].
Qed.
Lemma flush_total w hdr comp per done cur : writing w hdr comp per done cur -> small (comp (block_bytes cur)) -> exists w1, writer_flush w = (w1, Ok tt).
Proof.
  intros [H1 H2 H3 H4 H5 H6] S. unfold writer_flush. rewrite H4, H2, (image_pack _ S). destruct (w_count w >? 0); eauto.
Qed.
Lemma block_bytes_snoc cur d : block_bytes (cur ++ [d]) = block_bytes cur ++ image d.
Proof. rewrite block_bytes_app. unfold block_bytes at 2. cbn. rewrite app_nil_r. reflexivity. Qed.
Lemma add_ok w hdr comp per done cur d w1 : writing w hdr comp per done cur -> writer_add w d = (w1, Ok tt) -> small d /\
  ((zlen (cur ++ [d]) = per /\ writing w1 hdr comp per (done ++ [cur ++ [d]]) [] /\ small (comp (block_bytes (cur ++ [d])))) \/
   (zlen (cur ++ [d]) <> per /\ writing w1 hdr comp per done (cur ++ [d]))).
Proof.
  intros [H1 H2 H3 H4 H5 H6] E. unfold writer_add in E. destruct (pack (MBin d)) as [p|] eqn:P; [|discriminate]. apply pack_bin_ok in P. destruct P as [S ->]. split; [exact S|].
  assert (W : writing (mkW (w_out w) (w_block w ++ image d) (w_count w + 1) (w_comp w) (w_per w)) hdr comp per done (cur ++ [d])).
  { constructor; cbn; auto; [rewrite H2, block_bytes_snoc; reflexivity|rewrite zlen_app, H3; reflexivity]. }
  cbv zeta in E. rewrite (wr_count _ _ _ _ _ _ W), (wr_per _ _ _ _ _ _ W) in E. destruct (Z.eqb_spec (zlen (cur ++ [d])) per) as [Q|Q].
  - left. split; [exact Q|]. destruct (flush_ok _ _ _ _ _ _ _ W E) as [A B].
    assert (C : closed (cur ++ [d]) = [cur ++ [d]]) by (destruct cur; reflexivity). rewrite C in A, B. split; [exact A|]. inversion B; assumption.
  - right. split; [exact Q|]. injection E as <-. exact W.
Qed.
Lemma cut_nil per : cut_in per [] [].
Proof. split; [reflexivity|]. intros [|? pre] b post E; discriminate. Qed.
Lemma cut_closed per cur : (0 < per -> zlen cur <= per) -> cut_in per cur (closed cur).
Proof.
  intros L. destruct cur as [|d cur]; [apply cut_nil|]. cbn [closed]. split; [cbn; rewrite app_nil_r; reflexivity|].
  intros [|? pre] b post E; [|destruct pre; discriminate]. injection E as <- <-. split; [discriminate|]. split; [exact L|]. congruence.
Qed.
Lemma cut_cons per b run bs : b <> [] -> zlen b = per -> cut_in per run bs -> cut_in per (b ++ run) (b :: bs).
Proof.
  intros N Z [C D]. split; [cbn; rewrite C; reflexivity|]. intros [|b' pre] x post E.
  - injection E as <- <-. split; [exact N|]. split; [lia|auto].
  - injection E as <- E. exact (D pre x post E).
Qed.
Lemma runs_cons h ops : exists q qs, runs h ops = q :: qs.
Proof.
  revert h. induction ops as [|[x|] ops IH]; intros h; cbn [runs]; [eauto| |eauto].
  destruct (wdoc_data h x) as [h1 [data|]]; [|eauto]. destruct (IH h1) as (q & qs & ->). eauto.
Qed.
Lemma runs_concat h ops : List.concat (runs h ops) = written_data h ops.
Proof.
  revert h. induction ops as [|[x|] ops IH]; intros h; cbn [runs written written_data]; [reflexivity| |exact (IH h)]. unfold written_data. cbn [written].
  destruct (wdoc_data h x) as [h1 [data|]]; [|reflexivity]. specialize (IH h1). destruct (runs_cons h1 ops) as (q & qs & R). rewrite R in *. cbn [List.concat map snd] in *. rewrite <- app_comm_cons, IH. reflexivity.
Qed.
Lemma run_ok ops : forall h w hdr comp per done cur h1 w1, writing w hdr comp per done cur -> (0 < per -> zlen cur < per) ->
  writer_run h w ops = (h1, w1, Ok tt) -> Forall small cur ->
  exists q qs bss, runs h ops = q :: qs /\ Forall2 (cut_in per) ((cur ++ q) :: qs) bss /\ writing w1 hdr comp per (done ++ List.concat bss) [] /\
    Forall (fun ds => small (comp (block_bytes ds))) (List.concat bss) /\ Forall small (written_data h ops).
Proof.
  induction ops as [|[x|] ops IH]; intros h w hdr comp per done cur h1 w1 W L E SC; cbn [writer_run runs] in *.
  - destruct (writer_flush w) as [w2 [[]|]] eqn:F; [|discriminate]. injection E as <- <-. destruct (flush_ok _ _ _ _ _ _ _ W F) as [A B].
    exists [], [], [closed cur]. rewrite app_nil_r. split; [reflexivity|]. split; [constructor; [apply cut_closed; lia|constructor]|].
    cbn [List.concat]. rewrite app_nil_r. split; [exact A|]. split; [exact B|constructor].
  - unfold writer_write in E. unfold written_data. cbn [written]. destruct (wdoc_data h x) as [h2 [data|]]; [|discriminate].
    destruct (writer_add w data) as [w2 [[]|]] eqn:F; [|discriminate]. destruct (add_ok _ _ _ _ _ _ _ _ W F) as [S [(Q & A & B)|(Q & A)]].
    + destruct (IH h2 w2 hdr comp per _ [] h1 w1 A) as (q & qs & bss & R & F2 & A2 & B2 & S2); [unfold zlen; simpl length; lia|exact E|constructor|].
      rewrite R. inversion F2 as [|? b0 ? bss' C0 C1]; subst. cbn [app] in C0. exists (data :: q), qs, (((cur ++ [data]) :: b0) :: bss').
      split; [reflexivity|]. split.
      * constructor; [|exact C1]. replace (cur ++ data :: q) with ((cur ++ [data]) ++ q) by (rewrite <- app_assoc; reflexivity). apply cut_cons; [destruct cur; discriminate|reflexivity|exact C0].
      * split; [|split; [|constructor; assumption]].
        -- cbn [List.concat] in *. rewrite <- app_comm_cons. rewrite <- app_assoc in A2. exact A2.
        -- cbn [List.concat] in *. constructor; assumption.
    + destruct (IH h2 w2 hdr comp per done _ h1 w1 A) as (q & qs & bss & R & F2 & A2 & B2 & S2); [intros P; specialize (L P); rewrite zlen_app in *; change (zlen [data]) with 1 in *; lia|exact E|apply Forall_app; auto|].
      rewrite R. exists (data :: q), qs, bss. rewrite <- app_assoc in F2. split; [reflexivity|]. split; [exact F2|]. split; [exact A2|]. split; [exact B2|constructor; assumption].
  - destruct (writer_flush w) as [w2 [[]|]] eqn:F; [|discriminate]. destruct (flush_ok _ _ _ _ _ _ _ W F) as [A B].
    destruct (IH h w2 hdr comp per _ [] h1 w1 A) as (q & qs & bss & R & F2 & A2 & B2 & S2); [unfold zlen; simpl length; lia|exact E|constructor|].
    exists [], (runs h ops), (closed cur :: bss). rewrite app_nil_r. split; [reflexivity|]. split; [constructor; [apply cut_closed; lia|rewrite R; exact F2]|].
    cbn [List.concat]. rewrite app_assoc. split; [exact A2|]. split; [apply Forall_app; auto|exact S2].
Qed.
Lemma open_ok c per w : writer_open c per = Ok w -> writing w (header (c_name c) per) (c_comp c) per [] [] /\ str_fits (c_name c) /\ - 9223372036854775808 <= per < 18446744073709551616.
Proof.
  unfold writer_open, header. destruct (pack (MStr (c_name c))) as [a|] eqn:E1; [|discriminate]. destruct (pack (MInt per)) as [b|] eqn:E2; [|discriminate].
  cbn [rbind]. intros [= <-]. split; [|split].
  - constructor; try reflexivity.
    + cbn. rewrite ?app_nil_r, ?app_assoc. reflexivity.
    + unfold block_at, blocks_bytes. cbn [w_out split_counts length seq map firstn List.concat]. rewrite !zlen_app. change (zlen [194%N]) with 1. change (zlen (@nil N)) with 0. change (zlen dmf1) with 4. f_equal. lia.
  - assert (F : fits (MStr (c_name c))) by (apply pack_fits; eauto). inversion F; assumption.
  - assert (F : fits (MInt per)) by (apply pack_fits; eauto). inversion F; assumption.
Qed.
Lemma encode_magic h d ex tv h1 b : msgpack_encode h d ex tv = (h1, Ok b) -> firstn 4 b = magic.
Proof.
  unfold msgpack_encode. destruct (codec_encode h d ex tv) as [h2 [e|]]; [|discriminate]. intros [= _ H]. unfold layout in H.
  repeat match type of H with rbind ?r _ = _ => destruct r as [?|]; [cbn [rbind] in H|discriminate] end. apply Ok_inj in H. subst b. reflexivity.
Qed.
Lemma data_magic h x h1 b : proper x -> wdoc_data h x = (h1, Ok b) -> firstn 4 b = magic.
Proof.
  destruct x as [d ex tv|m|]; cbn [proper wdoc_data]; intros P H; [exact (encode_magic _ _ _ _ _ _ H)| |discriminate].
  injection H as <- <-. exact P.
Qed.
Lemma written_magic ops : forall h, all_proper ops -> Forall (fun d => firstn 4 d = magic) (written_data h ops).
Proof.
  induction ops as [|[x|] ops IH]; intros h P; unfold written_data; cbn [written]; [constructor| |apply IH; intros y I; apply P; right; exact I].
  destruct (wdoc_data h x) as [h1 [b|]] eqn:E; [|constructor]. cbn [map snd]. constructor; [exact (data_magic _ _ _ _ (P x (or_introl eq_refl)) E)|].
  apply IH. intros y I. apply P. right. exact I.
Qed.
Lemma Forall2_concat per rs bss : Forall2 (cut_in per) rs bss -> List.concat (List.concat bss) = List.concat rs /\ Forall (fun ds => ds <> []) (List.concat bss).
Proof.
  induction 1 as [|r b rs bss C _ [IH1 IH2]]; [split; [reflexivity|constructor]|]. cbn [List.concat]. rewrite concat_app, IH1. destruct C as [C D]. rewrite C. split; [reflexivity|].
  apply Forall_app. split; [|exact IH2]. apply Forall_forall. intros ds I. apply in_split in I. destruct I as (pre & post & I). exact (proj1 (D pre ds post I)).
Qed.
(** what a writer leaves in the file *)
Lemma file_layout c per h ops f : is_file c per h ops f -> all_proper ops ->
  exists bss, Forall2 (cut_in per) (runs h ops) bss /\ f = header (c_name c) per ++ blocks_bytes (c_comp c) (List.concat bss) /\
    List.concat (List.concat bss) = written_data h ops /\ storable (c_comp c) (List.concat bss) /\ str_fits (c_name c) /\ - 9223372036854775808 <= per < 18446744073709551616.
Proof.
  intros (w & h1 & w1 & O & R & ->) P. destruct (open_ok c per w O) as (W & F1 & F2).
  destruct (run_ok ops h w _ _ _ _ _ h1 w1 W ltac:(unfold zlen; simpl length; lia) R (Forall_nil _)) as (q & qs & bss & E & C & W1 & S1 & S2).
  cbn [app] in C. rewrite <- E in C. exists bss. destruct (Forall2_concat per _ _ C) as [J N]. rewrite runs_concat in J.
  split; [exact C|]. split; [exact (wr_out _ _ _ _ _ _ W1)|]. split; [exact J|]. split; [|auto].
  pose proof (written_magic ops h P) as M. rewrite <- J in S2, M. clear -S1 S2 M N. unfold storable.
  induction (List.concat bss) as [|ds l IH]; [constructor|]. cbn [List.concat] in *. apply Forall_app in S2, M. inversion N; inversion S1; subst. constructor; [|apply IH; tauto].
  repeat split; auto. apply Forall_forall. intros d I. split; [exact (proj1 (Forall_forall _ _) (proj1 S2) d I)|exact (proj1 (Forall_forall _ _) (proj1 M) d I)].
Qed.
(** when a writer succeeds *)
Lemma run_total ops : forall h w hdr comp per done cur, writing w hdr comp per done cur -> all_encoded h ops ->
  Forall small (written_data h ops) ->
  (forall pre ds post, cur ++ written_data h ops = pre ++ ds ++ post -> small (comp (block_bytes ds))) ->
  exists h1 w1, writer_run h w ops = (h1, w1, Ok tt).
Proof.
  induction ops as [|[x|] ops IH]; intros h w hdr comp per done cur W A S C; cbn [writer_run all_encoded] in *.
  - unfold written_data in C. cbn in C. rewrite app_nil_r in C. destruct (flush_total _ _ _ _ _ _ W (C [] cur [] ltac:(rewrite app_nil_r; reflexivity))) as [w1 ->]. eauto.
  - destruct A as (h1 & data & E & A). unfold written_data in S, C. cbn [written] in S, C. unfold writer_write. rewrite E in *. cbn [map snd] in S, C. inversion S as [|? ? S1 S2]; subst.
    assert (SG : small (comp (block_bytes (cur ++ [data])))) by (apply (C [] (cur ++ [data]) (written_data h1 ops)); rewrite <- app_assoc; reflexivity).
    assert (T : exists w1, writer_add w data = (w1, Ok tt)).
    { unfold writer_add. rewrite (image_pack _ S1). cbv zeta. destruct (_ =? _); [|eauto]. eapply (flush_total _ hdr comp per done (cur ++ [data])); [|exact SG].
      destruct W as [H1 H2 H3 H4 H5 H6]. constructor; cbn; auto; [rewrite H2, block_bytes_snoc; reflexivity|rewrite zlen_app, H3; reflexivity]. }
    destruct T as [w1 T]. rewrite T. destruct (add_ok _ _ _ _ _ _ _ _ W T) as [_ [(_ & W1 & _)|(_ & W1)]].
    + apply (IH h1 w1 _ _ _ _ _ W1 A S2). intros pre ds post Q. cbn [app] in Q. apply (C (cur ++ data :: pre) ds post). fold (written_data h1 ops). rewrite Q, <- app_assoc. reflexivity.
    + apply (IH h1 w1 _ _ _ _ _ W1 A S2). intros pre ds post Q. apply (C pre ds post). fold (written_data h1 ops). rewrite <- Q, <- app_assoc. reflexivity.
  - destruct (flush_total _ _ _ _ _ _ W (C [] cur (written_data h (WFlush :: ops)) eq_refl)) as [w1 F]. rewrite F. destruct (flush_ok _ _ _ _ _ _ _ W F) as [W1 _].
    apply (IH h w1 _ _ _ _ _ W1 A S). intros pre ds post Q. apply (C (cur ++ pre) ds post). change (written_data h (WFlush :: ops)) with (written_data h ops). cbn [app] in Q. rewrite Q, <- app_assoc. reflexivity.
Qed.
Lemma file_total c per h ops : str_fits (c_name c) -> - 9223372036854775808 <= per < 18446744073709551616 -> all_encoded h ops ->
  Forall small (written_data h ops) -> (forall pre ds post, written_data h ops = pre ++ ds ++ post -> small (c_comp c (block_bytes ds))) ->
  exists f, is_file c per h ops f.
Proof.
  intros F1 F2 A S C. assert (E1 : exists a, pack (MStr (c_name c)) = Ok a) by (apply pack_fits; constructor; exact F1).
  assert (E2 : exists b, pack (MInt per) = Ok b) by (apply pack_fits; constructor; exact F2). destruct E1 as [a E1], E2 as [b E2].
  assert (O : exists w, writer_open c per = Ok w) by (unfold writer_open; rewrite E1, E2; cbn [rbind pack]; eauto). destruct O as [w O].
  destruct (open_ok c per w O) as (W & _). destruct (run_total ops h w _ _ _ _ _ W A S C) as (h1 & w1 & R). exists (out_bytes (w_out w1)), w, h1, w1. auto.
Qed.

(** ** reading what was written *)
Lemma file_reader c per h ops f g : is_file c per h ops f -> all_proper ops -> undoes g c ->
  exists bs r dec, List.concat bs = written_data h ops /\ storable (c_comp c) bs /\ (forall x, dec (c_comp c x) = Ok x) /\
    f = header (c_name c) per ++ blocks_bytes (c_comp c) bs /\ reader_open g f = Ok r /\
    base (header (c_name c) per) (c_comp c) dec bs [] r 0 /\ at_doc (header (c_name c) per) (c_comp c) dec bs [] r 0.
Proof.
  intros I P (c' & G & U). destruct (file_layout c per h ops f I P) as (bss & _ & F & J & S & F1 & F2).
  destruct (open_header g (c_name c) per c' (blocks_bytes (c_comp c) (List.concat bss)) F1 F2 G) as (r & O & A1 & A2 & A3 & A4 & A5 & _).
  exists (List.concat bss), r, (c_decomp c'). rewrite F. repeat (split; [assumption|]). split; [reflexivity|]. split; [exact O|].
  apply at_start; rewrite ?app_nil_r; auto.
Qed.
Lemma iterate c per h ops f g : is_file c per h ops f -> all_proper ops -> undoes g c ->
  exists r, reader_open g f = Ok r /\ forall fuel, (length (written h ops) < fuel)%nat ->
  exists r1 ms, reader_iter fuel r = (r1, Ok ms) /\ map md_raw ms = written_data h ops /\
    Forall (fun m => md_prop m = None /\ md_schema m = None /\ md_texts m = None /\ md_layers m = None /\ exists ref, md_ref m = Some ref) ms.
Proof.
  intros I P U. destruct (file_reader c per h ops f g I P U) as (bs & r & dec & J & S & D & F & O & B & A).
  exists r. split; [exact O|]. intros fuel L.
  assert (LE : length (stored (header (c_name c) per) (c_comp c) bs) = length (written h ops)) by (rewrite docs_length, J; unfold written_data; apply map_length).
  destruct (iter_at _ _ _ _ [] (storable_acceptable _ _ S) D eq_refl (length (written h ops)) r 0 fuel A) as (r1 & E & _); [lia|exact L|lia|].
  exists r1, (map fresh (stored (header (c_name c) per) (c_comp c) bs)). rewrite E. split; [reflexivity|]. split.
  - rewrite map_map. cbn [fresh md_raw]. rewrite <- J. apply refs_data.
  - apply Forall_forall. intros m Im. apply in_map_iff in Im. destruct Im as (x & <- & _). cbn. repeat split. eauto.
Qed.
Lemma access c per h ops f g : is_file c per h ops f -> all_proper ops -> undoes g c ->
  exists bs r, List.concat bs = written_data h ops /\ reader_open g f = Ok r /\
  let docs := stored (header (c_name c) per) (c_comp c) bs in
  map snd docs = written_data h ops /\
  forall cs, Forall (inside docs bs) cs -> rcalls r (map (concrete docs (block_at (header (c_name c) per) (c_comp c) bs)) cs) = sanswers docs bs 0 cs.
Proof.
  intros I P U. destruct (file_reader c per h ops f g I P U) as (bs & r & dec & J & S & D & F & O & B & A).
  exists bs, r. split; [exact J|]. split; [exact O|]. cbv zeta. split; [rewrite <- J; apply refs_data|].
  intros cs Fc. exact (rcalls_at _ _ dec bs [] (storable_acceptable _ _ S) D eq_refl cs r 0 A Fc).
Qed.

(** ** truncated files *)
Lemma cut_blocks comp bs : storable comp bs -> forall n, exists m tail, (m <= length bs)%nat /\ firstn n (blocks_bytes comp bs) = blocks_bytes comp (firstn m bs) ++ tail /\
  unpack1 tail = Err StopIteration /\ (length (blocks_bytes comp (firstn m bs)) <= n)%nat /\ ((m < length bs)%nat -> (n < length (blocks_bytes comp (firstn (S m) bs)))%nat).
Proof.
  induction 1 as [|ds bs (N & S & _) St IH]; intros n.
  - exists O, []. cbn. rewrite firstn_nil. repeat split; try lia.
  - rewrite blocks_bytes_cons, firstn_app. destruct (Nat.lt_ge_cases n (length (image (comp (block_bytes ds))))) as [L|L].
    + exists O, (firstn n (image (comp (block_bytes ds)))). replace (n - _)%nat with O by lia. rewrite firstn_O, app_nil_r. cbn [firstn].
      split; [lia|]. split; [reflexivity|]. split; [apply image_cut; assumption|]. split; [cbn; lia|]. intros _. rewrite blocks_bytes_cons, app_length. lia.
    + destruct (IH (n - length (image (comp (block_bytes ds))))%nat) as (m & tail & M & E & U & L1 & L2). exists (Datatypes.S m), tail. rewrite E, firstn_all2 by lia.
      cbn [firstn]. rewrite !blocks_bytes_cons, <- app_assoc, !app_length. cbn [length]. split; [lia|]. split; [reflexivity|]. split; [exact U|]. split; [lia|].
      intros Q. specialize (L2 ltac:(lia)). cbn [firstn] in L2 |- *. lia.
Qed.
Lemma refs_ext f f' bs : forall i0, (forall i, (i < i0 + length bs)%nat -> f i = f' i) -> refs_of f i0 bs = refs_of f' i0 bs.
Proof.
  induction bs as [|b bs IH]; intros i0 H; [reflexivity|]. cbn [refs_of]. rewrite (H i0) by (simpl; lia). rewrite (IH (Datatypes.S i0)); [reflexivity|]. intros i L. apply H. simpl. lia.
Qed.
Lemma refs_prefix f bs : forall i0 m, refs_of f i0 (firstn m bs) = firstn (first_of bs m) (refs_of f i0 bs).
Proof.
  induction bs as [|b bs IH]; intros i0 m; [rewrite !firstn_nil; reflexivity|]. destruct m as [|m]; [reflexivity|].
  unfold first_of. cbn [firstn refs_of List.concat]. rewrite app_length. rewrite firstn_app, map_length, seq_length.
  replace (length b + length (List.concat (firstn m bs)) - length b)%nat with (first_of bs m) by (unfold first_of; lia).
  rewrite (firstn_all2 (map _ _)) by (rewrite map_length, seq_length; lia). rewrite IH. reflexivity.
Qed.
Lemma stored_prefix hdr comp bs m : (m <= length bs)%nat -> stored hdr comp (firstn m bs) = firstn (first_of bs m) (stored hdr comp bs).
Proof.
  intros L. unfold stored. rewrite <- refs_prefix. apply refs_ext. intros i Li. rewrite firstn_length in Li. unfold block_at. rewrite firstn_firstn. repeat f_equal. lia.
Qed.
Lemma truncated c per h ops f g : is_file c per h ops f -> all_proper ops -> undoes g c ->
  exists bs, List.concat bs = written_data h ops /\ f = header (c_name c) per ++ blocks_bytes (c_comp c) bs /\
  forall n, (length (header (c_name c) per) <= n)%nat ->
  exists r m r1 fuel, reader_open g (firstn n f) = Ok r /\ complete (block_at (header (c_name c) per) (c_comp c) bs) bs (Z.of_nat n) m /\
    reader_iter fuel r = (r1, Ok (map fresh (firstn (first_of bs m) (stored (header (c_name c) per) (c_comp c) bs)))).
Proof.
  intros I P (c' & G & U). destruct (file_layout c per h ops f I P) as (bss & _ & F & J & S & F1 & F2).
  exists (List.concat bss). set (bs := List.concat bss) in *. split; [exact J|]. split; [exact F|]. intros n L. set (hdr := header (c_name c) per) in *.
  destruct (cut_blocks (c_comp c) bs S (n - length hdr)%nat) as (m & tail & M & E & T & L1 & L2).
  destruct (open_header g (c_name c) per c' (blocks_bytes (c_comp c) (firstn m bs) ++ tail) F1 F2 G) as (r & O & A1 & A2 & A3 & A4 & A5 & _). fold hdr in O, A1, A4.
  assert (Ef : firstn n f = hdr ++ blocks_bytes (c_comp c) (firstn m bs) ++ tail).
  { rewrite F, firstn_app, E. rewrite firstn_all2 by exact L. reflexivity. }
  destruct (at_start hdr (c_comp c) (c_decomp c') (firstn m bs) tail r A1 A2 A3 A4 A5) as [_ At].
  assert (S' : storable (c_comp c) (firstn m bs)).
  { unfold storable in *. apply Forall_forall. intros x Ix. apply (proj1 (Forall_forall _ _) S). rewrite <- (firstn_skipn m bs). apply in_or_app. auto. }
  destruct (iter_at hdr (c_comp c) (c_decomp c') (firstn m bs) tail (storable_acceptable _ _ S') U T _ r 0 (Datatypes.S (length (stored hdr (c_comp c) (firstn m bs)))) At eq_refl) as (r1 & Ei & _); [lia|lia|].
  exists r, m, r1, (Datatypes.S (length (stored hdr (c_comp c) (firstn m bs)))). rewrite Ef. split; [exact O|]. split.
  - split; [exact M|]. unfold block_at. split; [unfold zlen; lia|]. intros Q. specialize (L2 Q). unfold zlen. lia.
  - rewrite Ei. cbn [skipn]. rewrite stored_prefix by exact M. reflexivity.
Qed.

(** ** the documents themselves *)
Lemma md_document_fresh h d ex tv h1 b props ref h0 : doc_ok h d -> d_props d = MMap props -> msgpack_encode h d ex tv = (h1, Ok b) -> wf h0 ->
  exists h2 d', snd (md_document h0 (fresh (ref, b)) []) = (h2, Ok d') /\ same_doc h d h2 d' /\ wf h2 /\ untouched h0 h2 /\ known h2 d'.
Proof.
  intros D Pr E W. destruct (msgpack_round h d ex tv h1 b [] h0 D E W) as (h2 & d' & A & B & C & U & K & _). rewrite app_nil_r in A.
  assert (O : md_open b (Some ref) = Ok (fresh (ref, b))) by (unfold md_open; rewrite (encode_magic _ _ _ _ _ _ E); reflexivity).
  pose proof (lazy_document h d ex tv h1 b props D Pr E (fresh (ref, b)) (Some ref) O [] h0 (fun _ I => I)) as Q.
  cbn [app calls call] in Q. destruct (md_document h0 (fresh (ref, b)) []) as [m1 hr]. cbn [snd]. injection Q as Q. rewrite Q. exists h2, d'. auto.
Qed.
Lemma untouched_refl h : untouched h h.
Proof. repeat split; auto. Qed.
Lemma untouched_trans a b c : untouched a b -> untouched b c -> untouched a c.
Proof.
  intros (A1 & A2 & A3 & A4) (B1 & B2 & B3 & B4). split; [|split; [|lia]].
  - intros n L. rewrite B1 by lia. apply A1, L.
  - intros n L. rewrite B2 by lia. apply A2, L.
Qed.
Lemma Forall2_impl_right {A B} (R R' : A -> B -> Prop) l l' : (forall a b, In b l' -> R a b -> R' a b) -> Forall2 R l l' -> Forall2 R' l l'.
Proof. intros H F. induction F; constructor; [apply H; auto; left; reflexivity|]. apply IHF. intros a b I. apply H. right. exact I. Qed.
Lemma iter_bound h l n : wf h -> In (Some n) (layer_iter h l) -> n_collof h n = Some l.
Proof.
  intros W I. apply (layer_ok_member h l n (wf_layers h W l)). rewrite (iter_content h l (wf_layers h W l)) in I. apply in_map_iff in I. destruct I as (m & E & I). congruence.
Qed.
(** a document is the same after other documents have been made *)
Lemma same_doc_later h d h2 d' h3 : wf h2 -> known h2 d' -> untouched h2 h3 -> same_doc h d h2 d' -> same_doc h d h3 d'.
Proof.
  intros W K (Un & Ul & _ & _) [A B C].
  assert (IT : forall k l, In (k, l) (d_layers d') -> layer_iter h3 l = layer_iter h2 l).
  { intros k l I. unfold layer_iter, l_numof, l_nodesof. rewrite (Ul l (K k l I)). reflexivity. }
  assert (SN : forall x n n', same_node h d h2 d' x n n' -> same_node h d h3 d' x n n').
  { intros x n n' (l & l' & p & Q1 & Q2 & Q3 & Q4). exists l, l', p. repeat split; auto. unfold at_pos. rewrite (IT x l' (dget_In _ _ Q2)). exact Q4. }
  split; auto. eapply Forall2_impl_right; [|exact C]. intros [k l] [k' l'] I (Q1 & Q2 & Q3). cbn [fst snd] in *. pose proof (Ul l' (K k' l' I)) as El.
  split; [exact Q1|]. split; [unfold l_nameof in *; rewrite El; exact Q2|]. destruct Q3 as [X1 X2 X3 X4].
  assert (FI : forall p n', at_pos h3 l' p n' -> at_pos h2 l' p n' /\ n_fieldsof h3 n' = n_fieldsof h2 n').
  { intros p n' P. unfold at_pos in *. rewrite (IT k' l' I) in P. split; [exact P|]. unfold n_fieldsof. rewrite Un; [reflexivity|].
    destruct (Nat.lt_ge_cases n' (h_nnext h2)) as [L|L]; [exact L|]. exfalso. pose proof (wf_fresh_n h2 W n' L) as N. apply nth_error_In in P.
    apply (iter_bound h2 l' n' W) in P. congruence. }
  split.
  - rewrite El. exact X1.
  - rewrite (IT k' l' I). exact X2.
  - intros p n n' f t P1 P2 T. destruct (FI p n' P2) as [P3 ->]. specialize (X3 p n n' f t P1 P3 T). destruct X3; try solve [econstructor; eauto].
    + econstructor; eauto. eapply Forall2_impl_right; [|eassumption]. auto.
    + eapply sv_coll; eauto. eapply Forall2_impl_right; [|eassumption]. auto.
  - intros p n' f P. destruct (FI p n' P) as [P3 ->]. exact (X4 p n' f P3).
Qed.
(** encoding keeps documents *)
Lemma doc_ok_same h h1 d : doc_ok h d -> wf h1 -> looks_same h h1 -> h_lnext h1 = h_lnext h -> doc_ok h1 d.
Proof.
  intros D W S L.
  assert (AT : forall l p n, at_pos h1 l p n <-> at_pos h l p n) by (intros; unfold at_pos; rewrite (same_iter _ _ S); reflexivity).
  assert (OW : forall x n, own_node h d x n -> own_node h1 d x n).
  { intros x n (l & p & A & B). exists l, p. rewrite AT. auto. }
  assert (OS : forall x a b, own_span h d x a b -> own_span h1 d x a b).
  { intros x a b (l & p & q & A & B & C & E). exists l, p, q. rewrite !AT. auto. }
  split.
  - exact W.
  - intros k l I. rewrite L. exact (do_known _ _ D k l I).
  - exact (do_texts _ _ D).
  - exact (do_layers _ _ D).
  - exact (do_props _ _ D).
  - intros k f t (l & A & B). rewrite (same_schema _ _ S) in B. apply (do_types _ _ D k f t). exists l. auto.
  - intros k l n f v t [A B] V T. rewrite (same_fields _ _ S) in V. rewrite (same_schema _ _ S) in T. rewrite (same_iter _ _ S) in B.
    pose proof (do_values _ _ D k l n f v t (conj A B) V T) as Q. destruct Q; try solve [econstructor; eauto].
    econstructor; eauto. eapply Forall_impl; [|eassumption]. auto.
Qed.
Lemma same_doc_from h h1 d h2 d' : wf h -> wf h1 -> looks_same h h1 -> same_doc h1 d h2 d' -> same_doc h d h2 d'.
Proof.
  intros W W1 S [A B C].
  assert (AT : forall l p n, at_pos h1 l p n <-> at_pos h l p n) by (intros; unfold at_pos; rewrite (same_iter _ _ S); reflexivity).
  assert (SN : forall x n n', same_node h1 d h2 d' x n n' -> same_node h d h2 d' x n n').
  { intros x n n' (l & l' & p & Q1 & Q2 & Q3 & Q4). exists l, l', p. rewrite <- AT. auto. }
  assert (SF : forall x ns ns', Forall2 (same_node h1 d h2 d' x) ns ns' -> Forall2 (same_node h d h2 d' x) ns ns').
  { induction 1; constructor; auto. }
  split; auto. clear A B. induction C as [|[k l] [k' l'] ls ls' (Q1 & Q2 & Q3) C IH]; constructor; auto. split; [exact Q1|]. split; [exact Q2|].
  cbn [fst snd] in *. destruct Q3 as [X1 X2 X3 X4]. rewrite (same_schema _ _ S), (same_iter _ _ S) in *. split; auto.
  intros p n n' f t P1 P2 T. rewrite <- AT in P1. specialize (X3 p n n' f t P1 P2 T). rewrite (same_fields _ _ S) in X3.
  destruct X3; try solve [econstructor; eauto]. eapply sv_coll; eauto. exact (same_nodespan h1 h a b ns W1 W (looks_same_sym _ _ S) H1).
Qed.
Lemma looks_same_refl h : looks_same h h.
Proof. split; reflexivity. Qed.
Lemma encode_same h d ex tv h1 r : wf h -> known h d -> msgpack_encode h d ex tv = (h1, r) -> wf h1 /\ looks_same h h1 /\ h_lnext h1 = h_lnext h.
Proof.
  intros W K E. destruct (encode_keeps _ _ _ _ _ _ W K E) as (W1 & S & _). split; [exact W1|]. split; [exact S|].
  destruct (msgpack_encode_heap _ _ _ _ _ _ E) as (o & Ec & _). destruct (compile_heap _ _ _ _ _ _ Ec) as (pre & suf & E1 & -> & _).
  exact (proj1 (proj2 (proj2 (prepared_same h pre W (known_all _ _ _ _ K E1))))).
Qed.
Definition written_from (h : heap) (w : heap * wdoc * list N) (d : doc) : Prop :=
  match w with (hi, x, b) => exists ex tv h1, x = WDocument d ex tv /\ msgpack_encode hi d ex tv = (h1, Ok b) /\ doc_ok hi d /\ looks_same h hi /\ wf hi end.
Lemma written_docs h0 ops : forall h, only_documents ops -> (forall d, In d (docs_of ops) -> doc_ok h0 d) -> looks_same h0 h -> wf h -> h_lnext h = h_lnext h0 -> all_encoded h ops ->
  Forall2 (written_from h0) (written h ops) (docs_of ops).
Proof.
  induction ops as [|[x|] ops IH]; intros h O D S W L A; cbn [written docs_of all_encoded] in *; [constructor| |].
  - destruct (O x (or_introl eq_refl)) as (d & ex & tv & ->). destruct A as (h1 & data & E & A). rewrite E. cbn [wdoc_data] in E.
    assert (Dd : doc_ok h d) by (apply (doc_ok_same h0 h); auto; apply D; left; reflexivity).
    destruct (encode_same h d ex tv h1 (Ok data) W (do_known _ _ Dd) E) as (W1 & S1 & L1). constructor.
    + exists ex, tv, h1. auto.
    + apply IH; auto; [intros y I; apply O; right; exact I|intros y I; apply D; right; exact I|exact (looks_same_trans _ _ _ S S1)|congruence].
  - apply IH; auto. intros y I. apply O. right. exact I.
Qed.
Section Documents.
Context (hdr : list N) (comp : list N -> list N) (decomp : list N -> res (list N)) (bs : list (list (list N))) (tail : list N).
Hypothesis (ST : storable comp bs) (INV : forall x, decomp (comp x) = Ok x) (TAIL : unpack1 tail = Err StopIteration).
Lemma docs_at h ws ds : wf h -> Forall2 (written_from h) ws ds -> Forall (fun d => exists props, d_props d = MMap props) ds ->
  forall k r h0 f, at_doc hdr comp decomp bs tail r k -> wf h0 -> map snd ws = map snd (skipn k (stored hdr comp bs)) -> (length ws < f)%nat ->
  exists h1 r1 l, docreader_iter f h0 r = (h1, r1, Ok l) /\ Forall2 (fun d d' => same_doc h d h1 d') ds l /\ wf h1 /\ untouched h0 h1.
Proof.
  intros Wh F2. induction F2 as [|[[hi x] b] d ws ds F1 F2 IH]; intros PR k r h0 f A W E L; (destruct f as [|f]; [lia|]); cbn [docreader_iter]; unfold docreader_next;
    pose proof (next_at hdr comp decomp bs tail (storable_acceptable _ _ ST) INV TAIL r k A) as NX.
  - destruct (nth_error (stored hdr comp bs) k) as [y|] eqn:Y; [rewrite (skipn_nth _ _ _ Y) in E; discriminate|].
    destruct NX as (r1 & E1 & A1). rewrite E1. exists h0, r1, []. split; [reflexivity|]. split; [constructor|]. split; [exact W|apply untouched_refl].
  - apply Forall_cons_iff in PR. destruct PR as [[props Pr] PR]. destruct F1 as (ex & tv & h1 & -> & Eb & D1 & S1 & W1).
    destruct (nth_error (stored hdr comp bs) k) as [[ref y]|] eqn:Y.
    + rewrite (skipn_nth _ _ _ Y) in E. cbn [map snd] in E. assert (y = b) by congruence. subst y. assert (E' : map snd ws = map snd (skipn (S k) (stored hdr comp bs))) by congruence.
      destruct NX as (r1 & E1 & A1). rewrite E1.
      destruct (md_document_fresh hi d ex tv h1 b props ref h0 D1 Pr Eb W) as (h2 & d' & Q & SD & W2 & U2 & K2).
      destruct (md_document h0 (fresh (ref, b)) []) as [m1 hr]. cbn [snd] in Q. subst hr. cbn [fst snd rmap].
      destruct (IH PR (S k) r1 h2 f A1 W2 E') as (h3 & r3 & l & Q & F3 & W3 & U3); [simpl in L; lia|].
      rewrite Q. exists h3, r3, (d' :: l). cbn [rbind]. split; [reflexivity|]. split; [|split; [exact W3|exact (untouched_trans _ _ _ U2 U3)]].
      constructor; [|exact F3]. apply (same_doc_later h d h2 d' h3 W2 K2 U3). exact (same_doc_from h hi d h2 d' Wh W1 S1 SD).
    + exfalso. apply nth_error_None in Y. rewrite skipn_all2 in E by exact Y. discriminate.
Qed.
End Documents.
Lemma run_encoded ops : forall h w h1 w1, writer_run h w ops = (h1, w1, Ok tt) -> all_encoded h ops.
Proof.
  induction ops as [|[x|] ops IH]; intros h w h1 w1 E; cbn [writer_run all_encoded] in *; [exact I| |].
  - unfold writer_write in E. destruct (wdoc_data h x) as [h2 [data|]] eqn:X; [|discriminate]. destruct (writer_add w data) as [w2 [[]|]]; [|discriminate]. exists h2, data. eauto.
  - destruct (writer_flush w) as [w2 [[]|]]; [|discriminate]. eauto.
Qed.
Lemma document_reader c per h ops f g h0 : is_file c per h ops f -> undoes g c -> wf h -> wf h0 -> only_documents ops -> (forall d, In d (docs_of ops) -> readable h d) ->
  exists r, reader_open g f = Ok r /\ forall fuel, (length (docs_of ops) < fuel)%nat ->
  exists h1 r1 l, docreader_iter fuel h0 r = (h1, r1, Ok l) /\ Forall2 (fun d d' => same_doc h d h1 d') (docs_of ops) l /\ wf h1 /\ untouched h0 h1.
Proof.
  intros If U W W0 O D. assert (P : all_proper ops) by (intros x Ix; destruct (O x Ix) as (d & ex & tv & ->); exact I).
  assert (A : all_encoded h ops) by (destruct If as (w & h1 & w1 & _ & R & _); exact (run_encoded _ _ _ _ _ R)).
  pose proof (written_docs h ops h O (fun d Id => proj1 (D d Id)) (looks_same_refl h) W eq_refl A) as WD.
  destruct (file_reader c per h ops f g If P U) as (bs & r & dec & J & S & Dc & F & Or & B & At).
  exists r. split; [exact Or|]. intros fuel L.
  apply (docs_at (header (c_name c) per) (c_comp c) dec bs [] S Dc eq_refl h (written h ops) (docs_of ops) W WD) with (k := 0%nat); auto.
  - apply Forall_forall. intros d Id. exact (proj2 (D d Id)).
  - cbn [skipn]. unfold stored. rewrite refs_data. symmetry. exact J.
  - assert (length (written h ops) = length (docs_of ops)) by (clear -WD; induction WD; simpl; congruence). lia.
Qed.

(** ** what else is said of files *)
Lemma writer_splits c per h ops w h1 w1 : writer_open c per = Ok w -> writer_run h w ops = (h1, w1, Ok tt) ->
  exists bs, List.concat bs = written_data h ops /\ out_bytes (w_out w1) = header (c_name c) per ++ blocks_bytes (c_comp c) bs /\
    split_counts 0 (w_out w1) = map (block_at (header (c_name c) per) (c_comp c) bs) (seq 0 (S (length bs))).
Proof.
  intros O R. destruct (open_ok c per w O) as (W & _).
  destruct (run_ok ops h w _ _ _ _ _ h1 w1 W ltac:(unfold zlen; simpl length; lia) R (Forall_nil _)) as (q & qs & bss & E & C & W1 & _).
  cbn [app] in C. rewrite <- E in C. destruct (Forall2_concat per _ _ C) as [J _]. rewrite runs_concat in J.
  exists (List.concat bss). split; [exact J|]. split; [exact (wr_out _ _ _ _ _ _ W1)|exact (wr_splits _ _ _ _ _ _ W1)].
Qed.
Lemma any_file c per bs g : str_fits (c_name c) -> - 9223372036854775808 <= per < 18446744073709551616 -> acceptable (c_comp c) bs -> undoes g c ->
  let docs := stored (header (c_name c) per) (c_comp c) bs in
  exists r, reader_open g (header (c_name c) per ++ blocks_bytes (c_comp c) bs) = Ok r /\ map snd docs = List.concat bs /\
    (forall fuel, (length docs < fuel)%nat -> exists r1, reader_iter fuel r = (r1, Ok (map fresh docs))) /\
    (forall cs, Forall (inside docs bs) cs -> rcalls r (map (concrete docs (block_at (header (c_name c) per) (c_comp c) bs)) cs) = sanswers docs bs 0 cs).
Proof.
  intros F1 F2 A (c' & G & U) docs. destruct (open_header g (c_name c) per c' (blocks_bytes (c_comp c) bs) F1 F2 G) as (r & O & A1 & A2 & A3 & A4 & A5 & _).
  exists r. split; [exact O|]. split; [apply refs_data|].
  assert (At : at_doc (header (c_name c) per) (c_comp c) (c_decomp c') bs [] r 0) by (apply at_start; rewrite ?app_nil_r; auto).
  split.
  - intros fuel L. destruct (iter_at _ _ _ _ [] A U eq_refl (length docs) r 0 fuel At) as (r1 & E & _); [unfold docs; lia|exact L|lia|]. exists r1. exact E.
  - intros cs Fc. exact (rcalls_at _ _ (c_decomp c') bs [] A U eq_refl cs r 0 At Fc).
Qed.
Lemma refuse_header g f : firstn 4 f <> dmf1 -> reader_open g f = Err IOError.
Proof.
  intros N. unfold reader_open. change (list_eqb N.eqb (firstn 4 f) dmf1) with (str_eqb (firstn 4 f) dmf1). destruct (str_eqb_spec (firstn 4 f) dmf1); [contradiction|reflexivity].
Qed.
Lemma refuse_codec g name a rest : pack (MStr name) = Ok a -> ~ In name (dkeys g) -> reader_open g (dmf1 ++ a ++ rest) = Err NotImplementedError.
Proof.
  intros E1 N. unfold reader_open. replace (firstn 4 (dmf1 ++ a ++ rest)) with dmf1 by reflexivity. change (list_eqb N.eqb dmf1 dmf1) with true. cbn [negb].
  replace (skipn 4 (dmf1 ++ a ++ rest)) with (a ++ rest) by reflexivity.
  unfold u_open, u_next1. cbn [u_rest u_tell]. rewrite (unpack1_pack _ _ rest (pv_str name) E1). cbn [rbind codec_of].
  unfold get_codec. destruct (dmem g name) eqn:M; [|reflexivity]. exfalso. apply N. apply dmem_In. exact M.
Qed.
Lemma refuse_advanced g name c per a b o q rest : pack (MStr name) = Ok a -> dget g name = Some c -> pack (MInt per) = Ok b -> python_value o -> pack o = Ok q -> truth o = true ->
  reader_open g (dmf1 ++ a ++ b ++ q ++ rest) = Err NotImplementedError.
Proof.
  intros E1 G E2 PV E3 T. unfold reader_open. replace (firstn 4 (dmf1 ++ a ++ b ++ q ++ rest)) with dmf1 by reflexivity. change (list_eqb N.eqb dmf1 dmf1) with true. cbn [negb].
  replace (skipn 4 (dmf1 ++ a ++ b ++ q ++ rest)) with (a ++ b ++ q ++ rest) by reflexivity.
  unfold u_open, u_next1. cbn [u_rest u_tell]. rewrite (unpack1_pack _ _ (b ++ q ++ rest) (pv_str name) E1). cbn [rbind codec_of].
  unfold get_codec. rewrite G. destruct (negb false && negb (dmem g name)); [reflexivity|]. cbn [rbind u_rest u_tell].
  rewrite (unpack1_pack _ _ (q ++ rest) (pv_int per) E2). cbn [rbind u_rest u_tell]. rewrite (unpack1_pack _ _ rest PV E3). cbn [rbind]. rewrite T. reflexivity.
Qed.
