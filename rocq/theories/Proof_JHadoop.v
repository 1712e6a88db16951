(** DocumentWritable, and the files of Hadoop jobs. *)
From Verif Require Import PyBase PyBaseFacts Model_Text Model_Heap Model_Msgpack Model_Collection Model_Boundary Model_JUnits Model_JStream Model_JCodec Model_JEncode Model_JEdit Model_JHadoop
  Spec_Layer Spec_Msgpack Spec_Collection Spec_Boundary Spec_JStream Spec_JCodec Spec_JEncode Spec_JHadoop Proof_Msgpack Proof_Collection Proof_Collection2 Proof_JStream Proof_JStream2 Proof_JEncode3 Proof_JCut Proof_JCut2.
Local Open Scope Z_scope.

(** ** one writable *)
Lemma carries_blob w b : carries w b -> exists d, w_get_blob w = (mkW d (Some b), Ok (Some b)).
Proof. intros [d b'|j b' E]; unfold w_get_blob; cbn [w_blob w_doc]; [eauto|]. rewrite E. eauto. Qed.
Lemma carries_write w b : carries w b -> exists d, w_write w = (mkW d (Some b), Ok (be 4 (zlen b) ++ b)).
Proof.
  intros H. destruct (carries_blob _ _ H) as [d E]. exists d. unfold w_write. rewrite E. destruct H; [destruct d0|]; reflexivity.
Qed.
Lemma read_written w b rest : jsmall b -> w_read w ((be 4 (zlen b) ++ b) ++ rest) = (mkW None (Some b), Ok rest).
Proof.
  unfold jsmall. intros S. pose proof (zlen_nonneg b) as Z0. unfold w_read. rewrite <- app_assoc. unfold mu_uint. rewrite read4 by lia.
  assert (T : to_signed 4 (zlen b) = zlen b). { unfold to_signed. change (2 ^ (8 * 4 - 1)) with 2147483648. destruct (Z.ltb_spec (zlen b) 2147483648); [reflexivity|lia]. }
  rewrite T. destruct (Z.ltb_spec (zlen b) 0); [lia|]. unfold mu_payload. rewrite take_app by reflexivity. reflexivity.
Qed.
Theorem written_read w b out rest w2 : carries w b -> jsmall b -> snd (w_write w) = Ok out -> w_read w2 (out ++ rest) = (mkW None (Some b), Ok rest).
Proof. intros C S E. destruct (carries_write _ _ C) as [d W]. rewrite W in E. cbn [snd] in E. apply Ok_inj in E. subst out. apply read_written. exact S. Qed.
(** w_read with the value first *)
Definition read_blob (bs : list N) : res (list N * list N) :=
  let* (u, r) := mu_uint 4 bs in (if to_signed 4 u <? 0 then fun _ => Err ValueError else mu_payload (to_signed 4 u)) r.
Lemma st_read_blob : steady read_blob.
Proof. apply steady_bind; [apply st_uint|]. intros u. destruct (to_signed 4 u <? 0); [apply steady_err|apply st_payload]. Qed.
Lemma read_is w bs : w_read w bs = match read_blob bs with Ok (b, r) => (mkW None (Some b), Ok r) | Err e => (w, Err e) end.
Proof.
  unfold w_read, read_blob. destruct (mu_uint 4 bs) as [[u r]|]; [|reflexivity]. cbn [rbind]. destruct (to_signed 4 u <? 0); [reflexivity|]. destruct (mu_payload (to_signed 4 u) r) as [[x y]|]; reflexivity.
Qed.
Theorem written_cut w b out w2 b1 b2 : carries w b -> jsmall b -> snd (w_write w) = Ok out -> out = b1 ++ b2 -> b2 <> [] -> w_read w2 b1 = (w2, Err OutOfData).
Proof.
  intros C S E -> N2. pose proof (written_read w b _ [] w2 C S E) as R. rewrite read_is in R. rewrite read_is.
  destruct (read_blob ((b1 ++ b2) ++ [])) as [[x y]|] eqn:Q; [|discriminate]. injection R as -> ->. rewrite (steady_short _ _ _ _ b1 b2 st_read_blob Q eq_refl N2). reflexivity.
Qed.
Theorem document_carried j b out rest w2 : jdoc_ok j -> java_rereadable j -> java_encode j = Ok b -> jsmall b -> snd (w_write (mkW (Some j) None)) = Ok out ->
  exists k, w_read w2 (out ++ rest) = (mkW None (Some b), Ok rest) /\ w_get_document (mkW None (Some b)) = (mkW (Some k) (Some b), Ok (Some k)) /\ doc_again j k.
Proof.
  intros D RR E S W. destruct (java_again j b [] D RR E) as (k & Dk & A). rewrite app_nil_r in Dk. exists k. split; [|split; [|exact A]].
  - eapply written_read; [constructor; exact E|exact S|exact W].
  - unfold w_get_document. cbn [w_doc w_blob]. rewrite Dk. reflexivity.
Qed.
Theorem all_carried ws bs w2 rest : Forall2 carries ws bs -> Forall jsmall bs -> exists out, w_write_all ws = Ok out /\ w_read_all (length ws) w2 (out ++ rest) = Ok (map (fun b => mkW None (Some b)) bs, rest).
Proof.
  intros C. revert w2. induction C as [|w b ws bs C1 C2 IH]; intros w2 S; [exists []; split; reflexivity|]. inversion S as [|? ? S1 S2]; subst.
  destruct (carries_write _ _ C1) as [d W]. destruct (IH (mkW None (Some b)) S2) as (q & Q1 & Q2). cbn [w_write_all length w_read_all map]. rewrite W. cbn [snd rbind]. rewrite Q1. cbn [rbind].
  eexists. split; [reflexivity|]. rewrite <- app_assoc, read_written by exact S1. rewrite Q2. reflexivity.
Qed.

(** ** edits *)
Lemma blob_call w b c : w_blob w = Some b -> w_blob (w_call w c) = Some b.
Proof.
  destruct w as [d o]. cbn [w_blob]. intros ->. destruct c as [| |e|]; cbn [w_call].
  - unfold w_get_document. cbn [w_doc w_blob]. destruct d as [d|]; [reflexivity|]. destruct (java_decode b); reflexivity.
  - reflexivity.
  - unfold w_edit, w_get_document. cbn [w_doc w_blob]. destruct d as [d|].
    + destruct (run_edit e d). reflexivity.
    + destruct (java_decode b) as [d|]; [|reflexivity]. cbn. destruct (run_edit e d). reflexivity.
  - unfold w_write. cbn [w_doc w_blob]. destruct d; reflexivity.
Qed.
Theorem edits_lost w b cs : w_blob w = Some b -> let w1 := fold_left w_call cs w in w_get_blob w1 = (w1, Ok (Some b)) /\ w_write w1 = (w1, Ok (be 4 (zlen b) ++ b)).
Proof.
  revert w. induction cs as [|c cs IH]; intros w H; cbn [fold_left].
  - destruct w as [d o]. cbn [w_blob] in H. subst o. split; [reflexivity|]. unfold w_write. destruct d; reflexivity.
  - apply IH. apply blob_call. exact H.
Qed.
Lemma edits_fold es : forall j, fold_left w_call (map WEdit es) (mkW (Some j) None) = mkW (Some (fold_left (fun d e => fst (run_edit e d)) es j)) None.
Proof.
  induction es as [|e es IH]; intros j; [reflexivity|]. cbn [map fold_left w_call]. unfold w_edit, w_get_document. cbn [w_doc w_blob]. destruct (run_edit e j) as [d r] eqn:E. cbn [fst]. apply IH.
Qed.
Theorem edits_kept j es b : java_encode (fold_left (fun d e => fst (run_edit e d)) es j) = Ok b -> carries (fold_left w_call (map WEdit es) (mkW (Some j) None)) b.
Proof. intros E. rewrite edits_fold. constructor. exact E. Qed.
Theorem nothing_carried : w_write (mkW None None) = (mkW None None, Err RuntimeError) /\ w_get_document (mkW None None) = (mkW None None, Ok None) /\ w_get_blob (mkW None None) = (mkW None None, Ok None) /\
  forall e, w_edit (mkW None None) e = (mkW None None, Err AttributeError).
Proof. repeat split. Qed.

(** ** files *)
Lemma task_run ks bs : Forall2 carries ks bs -> forall d, rw_task (mkRW d false) ks = let (d1, r) := dw_run d (map Some bs) in match r with Ok _ => (mkRW d1 true, Ok tt) | Err e => (mkRW d1 false, Err e) end.
Proof.
  induction 1 as [|k b ks bs C C2 IH]; intros d; cbn [rw_task map dw_run].
  - unfold rw_close. cbn [rw_closed rw_dw]. destruct (dw_flush d) as [d1 [[]|e]]; reflexivity.
  - unfold rw_write. destruct (carries_blob _ _ C) as [x E]. rewrite E. cbn [rw_closed rw_dw]. destruct (dw_write d b) as [d1 [[]|e]]; [apply IH|reflexivity].
Qed.
Lemma rr_run comp dec (I : forall x, dec (comp x) = Ok x) docs : forall sr cur k, at_docs comp dec sr docs ->
  rr_calls (length docs + k) (mkRR (Some sr) cur) =
  map (fun b => (Ok true, mkW None (Some b))) docs ++ repeat (Ok false, match rev docs with b :: _ => mkW None (Some b) | [] => cur end) k.
Proof.
  induction docs as [|b docs IH]; intros sr cur k A.
  - cbn [length plus map app rev]. destruct k as [|k]; [reflexivity|]. cbn [rr_calls repeat]. unfold rr_next. cbn [rr_stream]. destruct (next_raw_ok comp dec I sr [] A) as (sr1 & E & _). rewrite E. cbn [hd_error rr_current].
    f_equal. clear. induction k as [|k IH]; [reflexivity|]. cbn [rr_calls repeat]. unfold rr_next. cbn [rr_stream rr_current]. rewrite IH. reflexivity.
  - cbn [length plus map app rr_calls]. unfold rr_next. cbn [rr_stream]. destruct (next_raw_ok comp dec I sr (b :: docs) A) as (sr1 & E & A1). rewrite E. cbn [hd_error rr_current tl] in *.
    rewrite (IH _ _ _ A1). unfold w_set_blob. do 2 f_equal. f_equal. f_equal. cbn [rev]. destruct (rev docs); reflexivity.
Qed.
Theorem job_file inflate ahead name comp per ks bs d w k : Forall2 carries ks bs -> bs <> [] -> java_codec inflate name comp -> per < 2147483648 -> Forall jsmall bs ->
  (forall pre ds post, bs = pre ++ ds ++ post -> jsmall (comp (block_bytes ds))) ->
  dw_open ahead name comp per = Ok d -> rw_task (mkRW d false) ks = (w, Ok tt) ->
  exists r, rr_open inflate (out_bytes (dw_out (rw_dw w))) = Ok r /\
    rr_calls (length bs + k) r = map (fun b => (Ok true, mkW None (Some b))) bs ++ repeat (Ok false, mkW None (hd_error (rev bs))) k.
Proof.
  intros C Ne J P S B O T. rewrite (task_run ks bs C) in T. destruct (dw_run d (map Some bs)) as [d1 [[]|e]] eqn:R; [|discriminate]. injection T as <-. cbn [rw_dw].
  assert (W : writes (map Some bs) = true) by (destruct bs; [congruence|reflexivity]).
  destruct (java_splits empty_heap ahead name comp per (map Some bs) d d1 O R W) as (bss & _ & D & F & _). rewrite F.
  assert (D' : List.concat bss = bs). { rewrite D. clear. induction bs as [|b bs IH]; [reflexivity|]. cbn. cbn in IH. rewrite IH. reflexivity. }
  assert (P1 : 1 <= per). { unfold dw_open in O. destruct (Z.ltb_spec per 1); [discriminate|lia]. }
  assert (A : jacceptable comp bss).
  { apply Forall_forall. intros ds In. apply in_split in In. destruct In as (pre & post & E). rewrite E, concat_app in D'. cbn [List.concat] in D'. split; [eapply B; symmetry; exact D'|].
    rewrite <- D' in S. apply Forall_app in S. destruct S as [_ S]. apply Forall_app in S. exact (proj1 S). }
  destruct (opens inflate name comp per (blocks_bytes comp bss) J ltac:(lia)) as (dec & Op & I). unfold rr_open. rewrite Op. cbn [rbind]. eexists. split; [reflexivity|].
  rewrite (rr_run comp dec I bs).
  - f_equal. f_equal. f_equal. destruct (rev bs) as [|x q] eqn:E; [|reflexivity]. reflexivity.
  - exists [], bss. split; [split; [reflexivity|split; [reflexivity|exact A]]|]. split; [cbn; congruence|]. split; [constructor|reflexivity].
Qed.
Theorem empty_job inflate ahead name comp per d w : java_codec inflate name comp -> per < 2147483648 -> dw_open ahead name comp per = Ok d -> rw_task (mkRW d false) [] = (w, Ok tt) ->
  (ahead < length (header name per))%nat -> rr_open inflate (out_bytes (dw_out (rw_dw w))) = Err OutOfData.
Proof.
  intros J P O T L. rewrite (task_run [] [] ltac:(constructor)) in T. destruct (dw_run d (map Some [])) as [d1 [[]|e]] eqn:R; [|discriminate]. injection T as <-. cbn [rw_dw].
  destruct (java_file ahead name comp (fun x => Ok x) per empty_heap [] d d1 O R) as (P1 & _ & _ & _ & Q & _). rewrite (Q eq_refl). unfold rr_open.
  rewrite (header_short inflate name comp per (firstn ahead (header name per)) (skipn ahead (header name per)) J ltac:(lia) (eq_sym (firstn_skipn _ _))); [reflexivity|].
  intros E. apply (f_equal (@length N)) in E. rewrite skipn_length in E. cbn in E. lia.
Qed.
Theorem job_documents inflate ahead name comp per js bs d w : Forall2 (fun j b => jdoc_ok j /\ java_rereadable j /\ java_encode j = Ok b) js bs -> js <> [] -> java_codec inflate name comp -> per < 2147483648 ->
  Forall jsmall bs -> (forall pre ds post, bs = pre ++ ds ++ post -> jsmall (comp (block_bytes ds))) ->
  dw_open ahead name comp per = Ok d -> rw_task (mkRW d false) (map (fun j => mkW (Some j) None) js) = (w, Ok tt) ->
  exists r keys, rr_open inflate (out_bytes (dw_out (rw_dw w))) = Ok r /\ rr_calls (length js + 1) r = map (fun k => (Ok true, k)) keys ++ [(Ok false, last keys (mkW None None))] /\
    Forall2 (fun j key => exists w1 k, w_get_document key = (w1, Ok (Some k)) /\ doc_again j k) js keys.
Proof.
  intros H Ne J P S B O T. assert (C : Forall2 carries (map (fun j => mkW (Some j) None) js) bs).
  { clear - H. induction H as [|j b js bs (D & R & E) H IH]; constructor; [constructor; exact E|exact IH]. }
  assert (Nb : bs <> []) by (inversion H; subst; [congruence|discriminate]).
  destruct (job_file inflate ahead name comp per _ bs d w 1 C Nb J P S B O T) as (r & O2 & Q). exists r, (map (fun b => mkW None (Some b)) bs). split; [exact O2|].
  replace (length js) with (length bs) by (clear - H; induction H; cbn; congruence). split.
  - rewrite Q, map_map. cbn [repeat]. f_equal; f_equal. destruct (rev bs) as [|x q] eqn:E; [apply (f_equal (@rev (list N))) in E; rewrite rev_involutive in E; cbn in E; congruence|].
    apply (f_equal (@rev (list N))) in E. rewrite rev_involutive in E. subst bs. cbn [rev]. rewrite map_app. cbn [map]. rewrite last_last. reflexivity.
  - clear - H. induction H as [|j b js bs (D & R & E) H IH]; cbn [map]; constructor; [|exact IH]. destruct (java_again j b [] D R E) as (k & Dk & A). rewrite app_nil_r in Dk.
    unfold w_get_document. cbn [w_doc w_blob]. rewrite Dk. eauto.
Qed.
Theorem job_input fuel n : forall sr cur, rr_calls n (mkRR (Some sr) cur) = seen cur (sr_calls fuel sr (repeat SNext n)).
Proof.
  assert (L : forall k c fuel sr, length (sr_calls fuel sr (repeat SNext k)) = k /\ rr_calls k (mkRR None c) = repeat (Ok false, c) k).
  { induction k as [|k IH]; intros c fl sr; [split; reflexivity|]. cbn [repeat sr_calls sr_call rr_calls]. unfold rr_next. cbn [rr_stream rr_current]. destruct (sr_next_raw sr) as [sr1 a]. cbn [length].
    destruct (IH c fl sr1) as [-> ->]. split; reflexivity. }
  induction n as [|n IH]; intros sr cur; [reflexivity|]. cbn [repeat sr_calls sr_call rr_calls]. unfold rr_next. cbn [rr_stream rr_current]. destruct (sr_next_raw sr) as [sr1 [[d|]|e]]; cbn [rr_current seen].
  - rewrite IH. reflexivity.
  - cbn [length]. rewrite (proj1 (L n cur fuel sr1)), (proj2 (L n cur fuel sr)). reflexivity.
  - rewrite IH. reflexivity.
Qed.
Lemma seen_docs ds : forall cur l, seen cur (map (fun d => SA_doc (Ok (Some d))) ds ++ l) = map (fun d => (Ok true, mkW None (Some d))) ds ++ seen (last (map (fun d => mkW None (Some d)) ds) cur) l.
Proof.
  induction ds as [|d ds IH]; intros cur l; [reflexivity|]. cbn [map app seen]. rewrite IH. do 3 f_equal. destruct ds as [|x q]; [reflexivity|].
  cbn [map]. clear. revert x. induction q as [|y q IH]; intros x; [reflexivity|]. cbn [map last] in *. apply IH.
Qed.
Lemma seen_end (a : res (option (list N))) cur k : (a = Ok None \/ exists e, a = Err e) -> seen cur (repeat (SA_doc a) k) = repeat (let* _ := a in Ok false, cur) k.
Proof.
  intros H. induction k as [|k IH]; [reflexivity|]. destruct H as [->|[e ->]].
  - cbn [repeat seen length]. rewrite repeat_length. reflexivity.
  - cbn [repeat seen]. rewrite IH. reflexivity.
Qed.
Theorem job_input_cut inflate name comp per bs f g : java_codec inflate name comp -> - 2147483648 <= per < 2147483648 -> jacceptable comp bs ->
  header name per ++ blocks_bytes comp bs = f ++ g ->
  ((length f < length (header name per))%nat -> rr_open inflate f = Err OutOfData) /\
  ((length (header name per) <= length f)%nat -> exists r bs1 bs2, rr_open inflate f = Ok r /\ bs = bs1 ++ bs2 /\
    forall k, rr_calls (length (List.concat bs1) + k) r = map (fun d => (Ok true, mkW None (Some d))) (List.concat bs1) ++
      repeat (if Nat.eqb (length f) (length (header name per ++ blocks_bytes comp bs1)) then Ok false else Err OutOfData,
              last (map (fun d => mkW None (Some d)) (List.concat bs1)) (mkW None None)) k).
Proof.
  intros J P A E. destruct (java_cut_file inflate name comp per bs f g J P A E) as [H1 H2]. split.
  - intros L. unfold rr_open. rewrite (H1 L). reflexivity.
  - intros L. destruct (H2 L) as (r & bs1 & bs2 & O & B & C). exists (mkRR (Some r) (mkW None None)), bs1, bs2. unfold rr_open. rewrite O. split; [reflexivity|]. split; [exact B|]. intros k.
    rewrite (job_input (length (List.concat bs))), (C _ k (le_n _)), seen_docs. f_equal. rewrite seen_end; [destruct (Nat.eqb _ _); reflexivity|]. destruct (Nat.eqb _ _); eauto.
Qed.
Theorem task_closed wr ks w : rw_closed wr = false -> rw_task wr ks = (w, Ok tt) -> rw_closed w = true.
Proof.
  revert wr. induction ks as [|k ks IH]; intros wr C T; cbn [rw_task] in T.
  - unfold rw_close in T. rewrite C in T. destruct (dw_flush (rw_dw wr)) as [d1 [[]|e]]; injection T; intros; subst; try discriminate. reflexivity.
  - unfold rw_write in T. rewrite C in T. destruct (w_get_blob k) as [k1 [[b|]|e]]; try discriminate. destruct (dw_write (rw_dw wr) b) as [d1 [[]|e]]; [|discriminate]. eapply IH; [|exact T]. reflexivity.
Qed.
Theorem closed_stays wr k b : rw_closed wr = true -> carries k b -> rw_close wr = (wr, Ok tt) /\ exists k1, rw_write wr k = (wr, k1, Err AttributeError) /\ carries k1 b.
Proof.
  intros C H. unfold rw_close, rw_write. rewrite C. split; [reflexivity|]. destruct (carries_blob _ _ H) as [d ->]. eexists. split; [reflexivity|]. constructor.
Qed.
Theorem task_ends wr ks w : rw_closed wr = false -> rw_task wr ks = (w, Ok tt) -> rw_close w = (w, Ok tt) /\
  forall k b, carries k b -> exists k1, rw_write w k = (w, k1, Err AttributeError) /\ carries k1 b.
Proof.
  intros C T. pose proof (task_closed _ _ _ C T) as D. split; [unfold rw_close; rewrite D; reflexivity|]. intros k b H. exact (proj2 (closed_stays w k b D H)).
Qed.
Theorem set_carried j b : carries (w_set_blob (Some b)) b /\ w_get_document (w_set_document j) = (w_set_document j, Ok j) /\ (forall d, j = Some d -> java_encode d = Ok b -> carries (w_set_document j) b).
Proof. split; [constructor|]. split; [destruct j; reflexivity|]. intros d -> E. constructor. exact E. Qed.
