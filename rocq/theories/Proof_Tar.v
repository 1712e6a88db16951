From Verif Require Import PyBase PyBaseFacts Model_Heap Model_Msgpack Model_Document Model_Codec Model_Lazy Model_Collection Model_Tar Spec_Layer Spec_Codec Spec_Collection Spec_Tar
  Spec_Document Proof_Document Proof_Codec2 Proof_Collection Proof_Collection2.
Local Open Scope Z_scope.

Lemma decimal_app a b : decimal (a ++ [b]) = (10 * decimal a + (b - 48))%N.
Proof. unfold decimal. rewrite fold_left_app. reflexivity. Qed.
Lemma digits_fuel_ok f : forall n, (n < 2 ^ N.of_nat f)%N -> decimal (digits_fuel f n) = n /\ Forall (fun c => 48 <= c <= 57)%N (digits_fuel f n) /\ (f <> 0%nat -> digits_fuel f n <> []).
Proof.
  induction f as [|f IH]; intros n L.
  - cbn in L. assert (n = 0)%N by lia. subst n. repeat split; try constructor. congruence.
  - cbn [digits_fuel]. destruct (N.ltb_spec n 10) as [S|S].
    + split; [unfold decimal; cbn [fold_left]; lia|]. split; [repeat constructor; lia|discriminate].
    + destruct (IH (n / 10)%N) as (A & B & _).
      { rewrite Nat2N.inj_succ, N.pow_succ_r' in L. apply N.div_lt_upper_bound; [lia|]. lia. }
      pose proof (N.mod_lt n 10 ltac:(lia)) as M. rewrite decimal_app, A.
      clear L. pose proof (N.div_mod n 10 ltac:(lia)) as DM. split; [rewrite (N.add_comm 48), N.add_sub; symmetry; exact DM|]. split; [apply Forall_app; split; [exact B|constructor; [split; [apply N.le_add_r|apply N.lt_succ_r; change (N.succ 57) with (48 + 10)%N; apply N.add_lt_mono_l, M]|constructor]]|].
      intros _ C. apply app_eq_nil in C. destruct C. discriminate.
Qed.
Lemma digits_ok n : decimal (digits n) = n /\ Forall (fun c => 48 <= c <= 57)%N (digits n) /\ digits n <> [].
Proof.
  unfold digits. destruct (digits_fuel_ok (S (N.to_nat (N.log2 n))) n) as (A & B & C).
  - rewrite Nat2N.inj_succ, N2Nat.id. destruct n as [|p]; [reflexivity|]. apply N.log2_spec. reflexivity.
  - auto.
Qed.
Lemma decimal_zeros k x : decimal (repeat 48%N k ++ x) = decimal x.
Proof. unfold decimal. induction k as [|k IH]; [reflexivity|]. cbn [repeat app fold_left]. exact IH. Qed.
Lemma format_inj df i j : format_name df i = format_name df j -> i = j.
Proof.
  unfold format_name. intros E. apply app_inv_head in E. rewrite !app_assoc in E. apply app_inv_tail in E.
  destruct (digits_ok i) as [A _], (digits_ok j) as [B _]. rewrite <- A, <- B, <- (decimal_zeros (df_width df - length (digits i)) (digits i)), E. apply decimal_zeros.
Qed.
Lemma path_join_inj a b b' : path_join a b = path_join a b' -> (hd_error b = Some 47%N <-> hd_error b' = Some 47%N) -> b = b'.
Proof.
  assert (P : forall b, path_join a b = if match hd_error b with Some c => N.eqb c 47 | None => false end then b
      else if match hd_error (rev a) with Some c => N.eqb c 47 | None => true end then a ++ b else a ++ 47%N :: b).
  { intros x. unfold path_join. destruct x as [|c x]; [change (@hd_error N []) with (@None N)|change (hd_error (c :: x)) with (Some c)].
    - destruct (rev a) as [|d r] eqn:R; cbn [hd_error].
      + apply (f_equal (@rev N)) in R. rewrite rev_involutive in R. subst a. reflexivity.
      + destruct (N.eqb_spec d 47) as [->|NE]; [reflexivity|]. destruct d as [|d]; [reflexivity|]. do 6 (destruct d as [d|d|]; try reflexivity). congruence.
    - assert (Q : match rev a with | [] => c :: x | 47%N :: _ => a ++ c :: x | _ => a ++ 47%N :: c :: x end =
          (if match hd_error (rev a) with Some c => N.eqb c 47 | None => true end then a ++ c :: x else a ++ 47%N :: c :: x)).
      { destruct (rev a) as [|d r] eqn:R; cbn [hd_error].
        + apply (f_equal (@rev N)) in R. rewrite rev_involutive in R. subst a. reflexivity.
        + destruct (N.eqb_spec d 47) as [->|NE]; [reflexivity|]. destruct d as [|d]; [reflexivity|]. do 6 (destruct d as [d|d|]; try reflexivity). congruence. }
      cbv iota beta. destruct (N.eqb_spec c 47) as [->|NE]; [reflexivity|]. etransitivity; [|exact Q]. destruct c as [|c]; [reflexivity|]. do 6 (destruct c as [c|c|]; try reflexivity). congruence. }
  rewrite !P. intros E H.
  assert (S : (match hd_error b with Some c => N.eqb c 47 | None => false end) = (match hd_error b' with Some c => N.eqb c 47 | None => false end)).
  { destruct (hd_error b) as [c|], (hd_error b') as [c'|]; try reflexivity.
    - destruct (N.eqb_spec c 47), (N.eqb_spec c' 47); try reflexivity; exfalso; subst; destruct H as [H1 H2]; [specialize (H1 eq_refl)|specialize (H2 eq_refl)]; congruence.
    - destruct (N.eqb_spec c 47); [|reflexivity]. subst. destruct H as [H1 _]. discriminate (H1 eq_refl).
    - destruct (N.eqb_spec c' 47); [|reflexivity]. subst. destruct H as [_ H2]. discriminate (H2 eq_refl). }
  rewrite <- S in E. destruct (match hd_error b with Some c => N.eqb c 47 | None => false end); [exact E|].
  destruct (match hd_error (rev a) with Some c => N.eqb c 47 | None => true end); apply app_inv_head in E; [exact E|congruence].
Qed.
Lemma format_head df i j : hd_error (format_name df i) = Some 47%N -> hd_error (format_name df j) = Some 47%N.
Proof.
  unfold format_name. destruct (df_pre df) as [|c p]; [|auto]. cbn [app]. intros H. exfalso. destruct (digits_ok i) as (_ & F & NE).
  destruct (df_width df - length (digits i))%nat; [|discriminate]. destruct (digits i) as [|c d]; [congruence|]. cbn in H. inversion F; subst. assert (c = 47)%N by congruence. lia.
Qed.
Definition name_of (w : tarwriter) (i : N) : pystr := match tw_root w with Some r => path_join r (format_name (tw_format w) i) | None => format_name (tw_format w) i end.
Lemma name_inj w i j : name_of w i = name_of w j -> i = j.
Proof.
  unfold name_of. destruct (tw_root w) as [r|]; intros E; [|exact (format_inj _ _ _ E)].
  apply path_join_inj in E; [exact (format_inj _ _ _ E)|]. split; apply format_head.
Qed.
(** the members after a program *)
Fixpoint numbered (w : tarwriter) (i : N) (l : list (list N)) : list member :=
  match l with [] => [] | d :: r => TFile (name_of w i) d :: numbered w (i + 1) r end.
Lemma numbered_ext w w' l : tw_root w' = tw_root w -> tw_format w' = tw_format w -> forall i, numbered w' i l = numbered w i l.
Proof. intros A B. induction l as [|d l IH]; intros i; [reflexivity|]. cbn [numbered]. rewrite IH. unfold name_of. rewrite A, B. reflexivity. Qed.
Lemma run_members xs : forall h w h1 w1 a, tar_run h w xs = (h1, w1, a) ->
  tw_members w1 = tw_members w ++ numbered w (tw_i w) (tar_written h xs).
Proof.
  induction xs as [|x xs IH]; intros h w h1 w1 a E; cbn [tar_run tar_written] in *.
  - injection E as <- <- <-. rewrite app_nil_r. reflexivity.
  - unfold tar_write in E. destruct (tar_data h x) as [h2 [data|e]].
    + destruct (tar_run h2 _ xs) as [[h3 w3] l] eqn:R in E. injection E as <- <- <-. rewrite (IH _ _ _ _ _ R). cbn [tw_members tw_i numbered]. rewrite <- app_assoc. rewrite (numbered_ext w) by reflexivity. reflexivity.
    + destruct (tar_run h2 w xs) as [[h3 w3] l] eqn:R in E. injection E as <- <- <-. exact (IH _ _ _ _ _ R).
Qed.
Lemma numbered_files w l : forall i, file_names (numbered w i l) = map (fun k => name_of w (i + N.of_nat k)) (seq 0 (length l)).
Proof.
  induction l as [|d l IH]; intros i; [reflexivity|]. cbn [numbered file_names fold_right length seq map]. fold (file_names (numbered w (i + 1) l)). rewrite IH, <- seq_shift, map_map. f_equal.
  - f_equal. lia.
  - apply map_ext. intros k. f_equal. lia.
Qed.
Lemma names_distinct df root h xs h1 w1 a : tar_run h (tar_open df root) xs = (h1, w1, a) -> NoDup (file_names (tw_members w1)).
Proof.
  intros E. rewrite (run_members _ _ _ _ _ _ E). cbn [tar_open tw_members tw_i].
  assert (S : file_names (match root with Some r => [TDir r] | None => [] end ++ numbered (tar_open df root) 0 (tar_written h xs)) = file_names (numbered (tar_open df root) 0 (tar_written h xs))) by (destruct root; reflexivity).
  rewrite S. rewrite numbered_files. apply FinFun.Injective_map_NoDup; [|apply seq_NoDup]. intros i j H. apply name_inj in H. lia.
Qed.
Lemma iter_numbered w l : Forall (fun d => firstn 4 d = magic) l -> forall i f, (length l < f)%nat -> tar_iter f (numbered w i l) = Ok (map (fun d => mkMD d None None None None None) l).
Proof.
  induction 1 as [|d l M F IH]; intros i f L; (destruct f as [|f]; [cbn in L; lia|]); cbn [tar_iter numbered tar_next]; [reflexivity|].
  unfold md_open. rewrite M. cbn [list_eqb rmap rbind]. change (list_eqb N.eqb magic magic) with true. cbn [rmap]. rewrite IH by (cbn in L; lia). reflexivity.
Qed.
Lemma tar_magic xs : (forall x, In x xs -> proper x) -> forall h, Forall (fun d => firstn 4 d = magic) (tar_written h xs).
Proof.
  induction xs as [|x xs IH]; intros P h; cbn [tar_written]; [constructor|]. specialize (IH (fun y I => P y (or_intror I))).
  destruct (tar_data h x) as [h1 [data|e]] eqn:E; [|apply IH]. constructor; [|apply IH].
  destruct x as [d ex tv|m|]; cbn in E; [exact (encode_magic _ _ _ _ _ _ E)|injection E as <- <-; exact (P _ (or_introl eq_refl))|discriminate].
Qed.
Lemma tar_round df root h xs h1 w1 a : tar_run h (tar_open df root) xs = (h1, w1, a) -> (forall x, In x xs -> proper x) ->
  forall fuel, (length xs < fuel)%nat -> tar_iter fuel (tw_members w1) = Ok (map (fun d => mkMD d None None None None None) (tar_written h xs)).
Proof.
  intros E P fuel L. rewrite (run_members _ _ _ _ _ _ E). cbn [tar_open tw_members tw_i].
  assert (LW : (length (tar_written h xs) <= length xs)%nat).
  { clear. revert h. induction xs as [|x xs IH]; intros h; cbn; [lia|]. destruct (tar_data h x) as [h1 [data|e]]; cbn; specialize (IH h1); lia. }
  pose proof (iter_numbered (tar_open df root) _ (tar_magic xs P h) 0 fuel ltac:(lia)) as Q.
  destruct root as [r|]; [|exact Q]. destruct fuel as [|f]; [lia|]. exact Q.
Qed.
Lemma tar_answers xs : forall h w h1 w1 a, tar_run h w xs = (h1, w1, a) -> (forall r, In r a -> r = Ok tt) -> length (tar_written h xs) = length xs.
Proof.
  induction xs as [|x xs IH]; intros h w h1 w1 a E A; cbn [tar_run tar_written] in *; [reflexivity|].
  unfold tar_write in E. destruct (tar_data h x) as [h2 [data|e]].
  - destruct (tar_run h2 _ xs) as [[h3 w3] l] eqn:R in E. injection E as <- <- <-. cbn. f_equal. apply (IH _ _ _ _ _ R). intros r I. apply A. right. exact I.
  - destruct (tar_run h2 w xs) as [[h3 w3] l] eqn:R in E. injection E as <- <- <-. discriminate (A _ (or_introl eq_refl)).
Qed.
(** the documents come back *)
Lemma tar_decodes xs : forall h0 h ds, Forall2 (fun x d => exists ex tv, x = WDocument d ex tv) xs ds -> (forall d, In d ds -> doc_ok h0 d) -> looks_same h0 h -> wf h0 -> wf h -> h_lnext h = h_lnext h0 ->
  length (tar_written h xs) = length xs ->
  Forall2 (fun d data => forall g, wf g -> exists h2 d', msgpack_decode g data = (h2, Ok d') /\ same_doc h0 d h2 d' /\ wf h2 /\ untouched g h2) ds (tar_written h xs).
Proof.
  intros h0 h ds F. revert h. induction F as [|x d xs ds (ex & tv & ->) F IH]; intros h D S W0 W L Le; cbn [tar_written tar_data] in *; [constructor|].
  assert (Dd : doc_ok h d) by (apply (doc_ok_same h0 h); auto; apply D; left; reflexivity).
  destruct (msgpack_encode h d false true) as [h1 [data|e]] eqn:E.
  - destruct (encode_same h d false true h1 (Ok data) W (do_known _ _ Dd) E) as (W1 & S1 & L1). constructor.
    + intros g Wg. destruct (msgpack_round h d false true h1 data [] g Dd E Wg) as (h2 & d' & A & B & C & U & _). rewrite app_nil_r in A. exists h2, d'.
      split; [exact A|]. split; [exact (same_doc_from h0 h d h2 d' W0 W S B)|]. auto.
    + apply IH; auto; try congruence; [intros y I; apply D; right; exact I|exact (looks_same_trans _ _ _ S S1)].
  - exfalso. assert (LW : forall h xs, (length (tar_written h xs) <= length xs)%nat).
    { clear. intros h xs. revert h. induction xs as [|x xs IH]; intros h; cbn; [lia|]. destruct (tar_data h x) as [h1 [data|e]]; cbn; specialize (IH h1); lia. }
    specialize (LW h1 xs). cbn in Le. lia.
Qed.
(** archives from elsewhere *)
Lemma tar_any : forall ms fuel, (length ms < fuel)%nat ->
  (Forall (fun d => firstn 4 d = magic) (file_data ms) -> tar_iter fuel ms = Ok (map (fun d => mkMD d None None None None None) (file_data ms))) /\
  (~ Forall (fun d => firstn 4 d = magic) (file_data ms) -> tar_iter fuel ms = Err ValueError).
Proof.
  assert (N : forall ms, exists m r, tar_next ms = (r, m) /\ (m = Ok None /\ file_data ms = [] \/ (length r < length ms)%nat /\ exists d, file_data ms = d :: file_data r /\ m = rmap Some (md_open d None))).
  { induction ms as [|[n|n d] ms IH]; simpl.
    - eexists. eexists. split; [reflexivity|]. left. auto.
    - destruct IH as (m & r & E & H). exists m, r. split; [exact E|]. destruct H as [H|(L & H)]; [left; exact H|right; split; [lia|exact H]].
    - eexists. eexists. split; [reflexivity|]. right. split; [lia|]. exists d. auto. }
  intros ms fuel. revert ms. induction fuel as [|f IH]; intros ms L; [lia|]. cbn [tar_iter]. destruct (N ms) as (m & r & -> & H). destruct H as [(-> & ->)|(Lr & d & -> & ->)].
  - split; [reflexivity|]. intros X. exfalso. apply X. constructor.
  - unfold md_open. change (list_eqb N.eqb (firstn 4 d) magic) with (str_eqb (firstn 4 d) magic). destruct (str_eqb_spec (firstn 4 d) magic) as [E|E]; cbn [rmap].
    + destruct (IH r ltac:(lia)) as (A & B). split; intros F.
      * inversion F; subst. rewrite A by assumption. reflexivity.
      * rewrite B; [reflexivity|]. intros X. apply F. constructor; assumption.
    + split; [|reflexivity]. intros F. inversion F as [|? ? F1 F2]; subst. contradiction.
Qed.
