(** Proofs about the rows of a table and about render_text as a whole. *)
From Verif Require Import PyBase PyBaseFacts Model_Printout Spec_Printout Proof_Printout Proof_Printout2.
From Coq Require Import Lia ZArith.
Local Open Scope Z_scope.

(** ** The rows *)
Lemma mapM_forall2 {A B} (f : A -> res B) l m : mapM f l = Ok m -> Forall2 (fun x y => f x = Ok y) l m.
Proof.
  revert m. induction l as [|x l IH]; intros m; cbn [mapM].
  - intros E. injection E as <-. constructor.
  - destruct (f x) as [y|] eqn:E; [|discriminate]. cbn [rbind]. destruct (mapM f l) as [q|]; [|discriminate]. cbn [rbind]. intros E1. injection E1 as <-.
    constructor; [exact E|apply IH; reflexivity].
Qed.
Lemma forall2_nth {A B} (R : A -> B -> Prop) l m : Forall2 R l m -> forall i x, nth_error l i = Some x -> exists y, nth_error m i = Some y /\ R x y.
Proof.
  induction 1 as [|a b l m H H2 IH]; intros i x E; [destruct i; discriminate E|]. destruct i as [|i]; cbn in *; [injection E as <-; eauto|apply IH, E].
Qed.
Lemma forall2_length {A B} (R : A -> B -> Prop) l m : Forall2 R l m -> length l = length m.
Proof. induction 1; cbn; congruence. Qed.
Lemma format_row o r i l : 0 <= i -> format_text o r i = Ok l -> row_text o r i l.
Proof.
  intros L E. unfold format_text in E. destruct (mapM _ (r_elems r)) as [c|] eqn:M; [|discriminate E]. cbn [rbind] in E. injection E as <-.
  exists (index_name r i), c. split; [reflexivity|]. split; [|apply mapM_forall2, M].
  unfold index_name. destruct (r_index r); [reflexivity|]. apply str_int_ok, L.
Qed.
Lemma combine_nth {A B} (a : list A) (b : list B) i x y : nth_error a i = Some x -> nth_error b i = Some y -> nth_error (combine a b) i = Some (x, y).
Proof.
  revert b i. induction a as [|u a IH]; intros b i Ea Eb; [destruct i; discriminate Ea|]. destruct b as [|v b]; [destruct i; discriminate Eb|].
  destruct i as [|i]; cbn in *; [congruence|apply IH; assumption].
Qed.
Lemma seq_nth_error a k i : (i < k)%nat -> nth_error (seq a k) i = Some (a + i)%nat.
Proof. intros L. rewrite (nth_error_nth' _ 0%nat) by (rewrite seq_length; exact L). rewrite seq_nth by exact L. reflexivity. Qed.
Lemma zrange_nth k i : (i < k)%nat -> nth_error (zrange k) i = Some (Z.of_nat i).
Proof. intros L. unfold zrange. apply map_nth_error. rewrite seq_nth_error by exact L. reflexivity. Qed.
Lemma zrange_length k : length (zrange k) = k.
Proof. unfold zrange. rewrite map_length, seq_length. reflexivity. Qed.
Lemma nth_firstn {A} (l : list A) k i : (i < k)%nat -> nth_error (firstn k l) i = nth_error l i.
Proof. revert l i. induction k as [|k IH]; intros l i L; [lia|]. destruct l as [|x l]; [reflexivity|]. destruct i as [|i]; [reflexivity|]. cbn. apply IH. lia. Qed.
Lemma nth_skipn {A} (l : list A) k i : nth_error (skipn k l) i = nth_error l (k + i).
Proof. revert l. induction k as [|k IH]; intros l; [reflexivity|]. destruct l; cbn; [destruct i; reflexivity|apply IH]. Qed.
Lemma nth_some {A} (l : list A) i : (i < length l)%nat -> exists x, nth_error l i = Some x.
Proof. intros L. destruct (nth_error l i) eqn:E; [eauto|]. apply nth_error_None in E. lia. Qed.

Section Rows.
Variables (o : options) (body : list row) (rows : list (option (list pystr))).
Let fmt (x : option (Z * row)) : res (option (list pystr)) := match x with None => Ok None | Some (i, r) => let* l := format_text o r i in Ok (Some l) end.
Hypothesis Hrows : mapM fmt (shown_rows o body) = Ok rows.

Lemma place p i r : nth_error (shown_rows o body) p = Some (Some (Z.of_nat i, r)) -> nth_error body i = Some r -> row_at o body rows p i.
Proof.
  intros E Eb. destruct (forall2_nth _ _ _ (mapM_forall2 _ _ _ Hrows) _ _ E) as (y & Ey & F). cbn in F.
  destruct (format_text o r (Z.of_nat i)) as [l|] eqn:Fm; [|discriminate F]. cbn [rbind] in F. injection F as <-.
  exists r, l. split; [exact Eb|]. split; [exact Ey|]. apply format_row; [lia|exact Fm].
Qed.
Lemma all_case : shown_rows o body = map Some (combine (zrange (length body)) body) ->
  length rows = length body /\ forall i, (i < length body)%nat -> row_at o body rows i i.
Proof.
  intros E. split.
  - rewrite <- (forall2_length _ _ _ (mapM_forall2 _ _ _ Hrows)), E, map_length, combine_length, zrange_length. lia.
  - intros i L. destruct (nth_some body _ L) as (r & Er). apply place with (r := r); [|exact Er]. rewrite E. apply map_nth_error.
    apply combine_nth; [apply zrange_nth, L|exact Er].
Qed.
Lemma rows_case : (forall m, o_rows o = Some m -> 0 <= m) -> rows_shown o body rows.
Proof.
  intros Pos. unfold rows_shown. destruct (o_rows o) as [m|] eqn:Em; [|apply all_case; unfold shown_rows; rewrite Em; reflexivity].
  specialize (Pos m eq_refl). destruct (Z.leb_spec (zlen body) m) as [L|L].
  { apply all_case. unfold shown_rows. rewrite Em. destruct (Z.ltb_spec m (zlen body)); [lia|reflexivity]. }
  exists (Z.to_nat (m / 2)). set (k := Z.to_nat (m / 2)).
  assert (K : Z.of_nat k = m / 2 /\ (2 * k <= Z.to_nat m)%nat).
  { unfold k. pose proof (Z.div_mod m 2 ltac:(lia)). pose proof (Z.mod_pos_bound m 2 ltac:(lia)). split; lia. }
  destruct K as [K K2]. split; [exact K|].
  assert (Kb : (2 * k < length body)%nat) by (unfold zlen in L; lia).
  set (up := map Some (combine (zrange k) (firstn k body))).
  set (down := map Some (combine (map (fun i => zlen body - Z.of_nat k + i) (zrange k)) (skipn (length body - k) body))).
  assert (S : shown_rows o body = up ++ [None] ++ down).
  { unfold shown_rows. rewrite Em. destruct (Z.ltb_spec m (zlen body)); [|lia].
    rewrite Z.shiftr_div_pow2 by lia. change (2 ^ 1) with 2. rewrite <- K, Nat2Z.id.
    rewrite slice_first by (unfold zlen; lia). rewrite Nat2Z.id. fold up. f_equal. f_equal. unfold down.
    destruct k as [|k']; [reflexivity|]. rewrite slice_last by (unfold zlen; lia). rewrite Nat2Z.id. reflexivity. }
  assert (Lu : length up = k) by (unfold up; rewrite map_length, combine_length, zrange_length, firstn_length; lia).
  assert (Ld : length down = k) by (unfold down; rewrite map_length, combine_length, map_length, zrange_length, skipn_length; lia).
  split; [rewrite <- (forall2_length _ _ _ (mapM_forall2 _ _ _ Hrows)), S, !app_length, Lu, Ld; cbn; lia|]. split; [|split].
  - assert (E : nth_error (shown_rows o body) k = Some None) by (rewrite S, nth_error_app2, Lu, Nat.sub_diag by lia; reflexivity).
    destruct (forall2_nth _ _ _ (mapM_forall2 _ _ _ Hrows) _ _ E) as (y & Ey & F). cbn in F. injection F as <-. exact Ey.
  - intros i Li. destruct (nth_some body i) as (r & Er); [lia|]. apply place with (r := r); [|exact Er].
    rewrite S, nth_error_app1 by lia. apply map_nth_error. apply combine_nth; [apply zrange_nth, Li|rewrite nth_firstn by exact Li; exact Er].
  - intros i Li. destruct (nth_some body (length body - k + i)) as (r & Er); [lia|]. apply place with (r := r); [|exact Er].
    rewrite S, nth_error_app2, Lu by lia. replace (k + 1 + i - k)%nat with (Datatypes.S i) by lia. cbn [app nth_error].
    apply map_nth_error. apply combine_nth; [|rewrite nth_skipn; exact Er].
    replace (Z.of_nat (length body - k + i)) with (zlen body - Z.of_nat k + Z.of_nat i) by (unfold zlen; lia).
    apply (map_nth_error (fun i => zlen body - Z.of_nat k + i)). apply zrange_nth, Li.
Qed.
End Rows.

(** ** Widths *)
Lemma column_ok rows j m : column_width rows j = Ok m ->
  0 <= m /\ (forall l, In (Some l) rows -> (j < length l)%nat /\ zlen (nth j l []) <= m) /\ (m = 0 \/ exists l, In (Some l) rows /\ zlen (nth j l []) = m).
Proof.
  revert m. induction rows as [|r rows IH]; intros m; cbn [column_width].
  - intros E. injection E as <-. split; [lia|]. split; [intros l []|left; reflexivity].
  - destruct r as [l|].
    + destruct (nth_error l j) as [x|] eqn:E; [|discriminate]. destruct (column_width rows j) as [q|]; [|discriminate]. cbn [rbind]. intros E1. injection E1 as <-.
      destruct (IH q eq_refl) as (A & B & C). assert (Nx : nth j l [] = x) by (apply nth_error_nth with (1 := E)).
      assert (Lx : (j < length l)%nat) by (apply nth_error_Some; congruence).
      split; [lia|]. split.
      * intros l' [X|X]; [injection X as <-; rewrite Nx; split; [exact Lx|lia]|]. destruct (B l' X). split; [assumption|lia].
      * destruct (Z.max_spec (zlen x) q) as [[H ->]|[H ->]].
        -- destruct C as [->|(l' & Hl & Hz)]; [left; reflexivity|right; exists l'; split; [right; exact Hl|exact Hz]].
        -- right. exists l. split; [left; reflexivity|]. rewrite Nx. reflexivity.
    + intros E. destruct (IH m E) as (A & B & C). split; [exact A|]. split.
      * intros l [X|X]; [discriminate X|apply B, X].
      * destruct C as [C|(l & Hl & Hz)]; [left; exact C|right; exists l; split; [right; exact Hl|exact Hz]].
Qed.
Lemma column_total rows j : (forall l, In (Some l) rows -> (j < length l)%nat) -> exists m, column_width rows j = Ok m.
Proof.
  induction rows as [|r rows IH]; intros H; [exists 0; reflexivity|]. destruct IH as (m & E); [intros l Hl; apply H; right; exact Hl|].
  cbn [column_width]. destruct r as [l|]; [|eauto]. destruct (nth_error l j) as [x|] eqn:Ex.
  - rewrite E. eexists. reflexivity.
  - apply nth_error_None in Ex. specialize (H l (or_introl eq_refl)). lia.
Qed.
Lemma widths_ok t headers rows ws : (0 < length headers)%nat -> actual_widths t headers rows = Ok ws ->
  length ws = length headers /\ (forall l, In (Some l) rows -> (length headers <= length l)%nat) /\
  (forall j, (j < length headers)%nat -> least_width t headers rows j (nth j ws 0)).
Proof.
  intros P. unfold actual_widths. destruct (mapM (column_width rows) (seq 0 (length headers))) as [rw|] eqn:M; [|discriminate]. cbn [rbind].
  apply mapM_forall2 in M. set (n := length headers) in *.
  assert (Lr : length rw = n) by (rewrite <- (forall2_length _ _ _ M); apply seq_length).
  assert (Cj : forall j, (j < n)%nat -> column_width rows j = Ok (nth j rw 0)).
  { intros j L. destruct (forall2_nth _ _ _ M j _ (seq_nth_error 0 _ _ L)) as (y & Ey & F). rewrite (nth_error_nth _ _ 0 Ey). exact F. }
  intros E.
  assert (Ew : length ws = n /\ forall j, (j < n)%nat -> nth j ws 0 = if t_hide_header t then nth j rw 0 else Z.max (zlen (nth j headers [])) (nth j rw 0)).
  { destruct (t_hide_header t); injection E as <-; [split; [exact Lr|reflexivity]|]. split; [rewrite map_length, combine_length, map_length; change (@length (list N) headers) with n; lia|].
    intros j L. apply nth_error_nth. destruct (nth_some headers j L) as (x & Ex). destruct (nth_some rw j) as (y & Ey); [lia|].
    erewrite map_nth_error; [|apply combine_nth; [apply map_nth_error, Ex|exact Ey]]. cbn. pose proof (nth_error_nth _ _ ([] : pystr) Ex) as E1; rewrite (nth_error_nth _ _ 0 Ey); cbn in E1 |- *; unfold pystr in *; congruence. }
  clear E. destruct Ew as [Lws Ew]. split; [exact Lws|]. split.
  - intros l Hl. destruct (Nat.le_gt_cases n (length l)) as [|G]; [assumption|]. assert (J : (n - 1 < n)%nat) by lia.
    apply Cj in J. apply column_ok in J. destruct J as (_ & J & _). apply J in Hl. lia.
  - intros j L. rewrite (Ew j L). pose proof (Cj j L) as C. apply column_ok in C. destruct C as (A & B & D). unfold least_width.
    destruct (t_hide_header t).
    + split.
      * intros x [[X _]|(l & Hl & ->)]; [discriminate X|apply B, Hl].
      * destruct D as [D|(l & Hl & Hz)]; [left; exact D|right; exists (nth j l []); split; [right; eauto|exact Hz]].
    + split.
      * intros x [[_ ->]|(l & Hl & ->)]; [lia|]. apply B in Hl. lia.
      * destruct (Z.max_spec (zlen (nth j headers [])) (nth j rw 0)) as [[H ->]|[H ->]].
        -- destruct D as [D|(l & Hl & Hz)]; [left; exact D|right; exists (nth j l []); split; [right; eauto|exact Hz]].
        -- right. eexists. split; [left; split; reflexivity|reflexivity].
Qed.

(** ** The whole *)
Lemma format_nonempty o r i l : format_text o r i = Ok l -> (0 < length l)%nat.
Proof. unfold format_text. destruct (mapM _ (r_elems r)); [|discriminate]. cbn [rbind]. intros E. injection E as <-. cbn. lia. Qed.
Lemma compile_inv o t headers rows : compile format_text o t = Ok (headers, rows) ->
  exists hd, t_header t = Some hd /\ format_text o hd 0 = Ok headers /\
  mapM (fun x => match x with None => Ok None | Some (i, r) => let* l := format_text o r i in Ok (Some l) end) (shown_rows o (t_body t)) = Ok rows.
Proof.
  unfold compile. destruct (t_header t) as [hd|]; [|discriminate]. destruct (format_text o hd 0) as [h|] eqn:E; [|discriminate]. cbn [rbind].
  destruct (mapM _ _) as [rs|] eqn:M; [|discriminate]. cbn [rbind]. intros X. injection X as <- <-. eauto.
Qed.
Lemma layout o t lines : text_lines o t = Ok lines ->
  exists headers rows w gs out, compile format_text o t = Ok (headers, rows) /\
    (forall j, (j < length headers)%nat -> least_width t headers rows j (w j)) /\
    (forall l, In (Some l) rows -> (length headers <= length l)%nat) /\
    List.concat gs = seq 1 (length headers - 1) /\ wraps o t w gs /\
    blocks_lines o t headers rows w true gs out /\ lines = out ++ [[]].
Proof.
  unfold text_lines. destruct (compile format_text o t) as [[headers rows]|] eqn:C; [|discriminate]. cbn [rbind].
  destruct (actual_widths t headers rows) as [ws|] eqn:W; [|discriminate]. cbn [rbind].
  destruct (render_blocks _ _ _ _ _ _ _) as [out|] eqn:R; [|discriminate]. cbn [rbind]. intros E. injection E as <-.
  apply compile_inv in C as Ci. destruct Ci as (hd & Eh & Fh & Mr).
  pose proof (format_nonempty _ _ _ _ Fh) as P. destruct (widths_ok t _ _ _ P W) as (Lw & Lr & LW).
  destruct (blocks_ok o t headers rows ws Lw Lr (length headers) 1 out ltac:(lia) R) as (gs & Cg & Wr & B).
  exists headers, rows, (fun j => nth j ws 0), gs, out. repeat (split; [solve [reflexivity|assumption]|]). reflexivity.
Qed.
Lemma compile_rows o t headers rows : (forall m, o_rows o = Some m -> 0 <= m) -> compile format_text o t = Ok (headers, rows) ->
  exists hd, t_header t = Some hd /\ row_text o hd 0 headers /\ rows_shown o (t_body t) rows.
Proof.
  intros Pos C. apply compile_inv in C. destruct C as (hd & Eh & Fh & Mr). exists hd. split; [exact Eh|]. split; [apply format_row; [lia|exact Fh]|].
  apply rows_case; assumption.
Qed.
Lemma truncate_total o x : limits o -> (o_width o = None \/ o_display o <> None) -> exists y, truncate o x = Ok y.
Proof.
  intros L H. destruct (o_width o) as [w|] eqn:W; [|exists x; unfold truncate; rewrite W; reflexivity].
  destruct (o_display o) as [d|] eqn:D; [|destruct H as [H|H]; [discriminate H|contradiction]].
  destruct (truncate_spec o x w d L W D) as (y & E & _). eauto.
Qed.
Lemma mapM_total {A B} (f : A -> res B) l : (forall x, In x l -> exists y, f x = Ok y) -> exists m, mapM f l = Ok m.
Proof.
  induction l as [|x l IH]; intros H; [exists []; reflexivity|]. destruct (H x (or_introl eq_refl)) as (y & E).
  destruct IH as (m & M); [intros z Hz; apply H; right; exact Hz|]. exists (y :: m). cbn [mapM]. rewrite E. cbn [rbind]. rewrite M. reflexivity.
Qed.
Lemma format_total o r i : limits o -> (o_width o = None \/ o_display o <> None) -> exists l, format_text o r i = Ok l /\ length l = S (length (r_elems r)).
Proof.
  intros L H. unfold format_text. destruct (mapM_total (fun c => truncate o (cell_text c)) (r_elems r)) as (m & M); [intros c _; apply truncate_total; assumption|].
  exists (index_name r i :: m). rewrite M. split; [reflexivity|]. cbn. f_equal. symmetry. exact (forall2_length _ _ _ (mapM_forall2 _ _ _ M)).
Qed.
Lemma in_sub {A} (l : list A) a b x : In x (py_slice l a b) -> In x l.
Proof.
  unfold py_slice, sub. intros H. rewrite <- (firstn_skipn (Z.to_nat (slice_start (zlen l) a)) l). apply in_or_app. right.
  rewrite <- (firstn_skipn (Z.to_nat (slice_stop (zlen l) b - slice_start (zlen l) a)) (skipn _ l)). apply in_or_app. left. exact H.
Qed.
Lemma shown_in o body i r : In (Some (i, r)) (shown_rows o body) -> In r body.
Proof.
  unfold shown_rows. assert (A : In (Some (i, r)) (map Some (combine (zrange (length body)) body)) -> In r body).
  { intros H. apply in_map_iff in H. destruct H as ([j q] & E & H). injection E as -> ->. eapply in_combine_r, H. }
  destruct (o_rows o) as [m|]; [|exact A]. destruct (m <? zlen body); [|exact A]. intros H.
  apply in_app_or in H as [H|H]; [|apply in_app_or in H as [[H|[]]|H]; [discriminate H|]];
    apply in_map_iff in H; destruct H as ([j q] & E & H); injection E as -> ->; apply in_combine_r in H; eapply in_sub, H.
Qed.
Lemma text_total o t hd : limits o -> (o_width o = None \/ o_display o <> None) -> t_header t = Some hd ->
  (forall r, In r (t_body t) -> (length (r_elems hd) <= length (r_elems r))%nat) -> exists lines, text_lines o t = Ok lines.
Proof.
  intros L H Eh Hr. unfold text_lines, compile. rewrite Eh. destruct (format_total o hd 0 L H) as (headers & Fh & Lh). rewrite Fh. cbn [rbind].
  set (fmt := fun x : option (Z * row) => match x with None => Ok None | Some (i, r) => let* l := format_text o r i in Ok (Some l) end).
  assert (M : exists rows, mapM fmt (shown_rows o (t_body t)) = Ok rows).
  { apply mapM_total. intros [[i r]|] _; [|exists None; reflexivity]. destruct (format_total o r i L H) as (l & F & _). exists (Some l). cbn. rewrite F. reflexivity. }
  destruct M as (rows & M). rewrite M. cbn [rbind].
  assert (Lr : forall l, In (Some l) rows -> (length headers <= length l)%nat).
  { intros l Hl. apply In_nth_error in Hl. destruct Hl as (p & Ep). pose proof (mapM_forall2 _ _ _ M) as F2.
    destruct (nth_error (shown_rows o (t_body t)) p) as [x|] eqn:Ex.
    - destruct (forall2_nth _ _ _ F2 p _ Ex) as (y & Ey & Fy). rewrite Ep in Ey. injection Ey as <-. destruct x as [[i r]|]; cbn in Fy; [|discriminate Fy].
      destruct (format_total o r i L H) as (l' & F' & L'). rewrite F' in Fy. cbn [rbind] in Fy. injection Fy as <-.
      apply nth_error_In in Ex. apply shown_in in Ex. apply Hr in Ex. lia.
    - apply nth_error_None in Ex. rewrite (forall2_length _ _ _ F2) in Ex. assert (p < length rows)%nat by (apply nth_error_Some; congruence). lia. }
  unfold actual_widths. destruct (mapM_total (column_width rows) (seq 0 (length headers))) as (rw & Rw).
  { intros j Hj. apply in_seq in Hj. apply column_total. intros l Hl. apply Lr in Hl. lia. }
  rewrite Rw. cbn [rbind].
  assert (Lrw : length rw = length headers) by (rewrite <- (forall2_length _ _ _ (mapM_forall2 _ _ _ Rw)); apply seq_length).
  set (ws := if t_hide_header t then rw else _).
  assert (Lws : length ws = length headers) by (unfold ws; destruct (t_hide_header t); [exact Lrw|rewrite map_length, combine_length, map_length; change (@length (list N) headers) with (@length pystr headers); lia]).
  destruct (blocks_total o t headers rows ws Lws Lr) with (fuel := length headers) (p := 1%nat) as (out & R); [intros c _; apply truncate_total; assumption|lia|lia|].
  rewrite R. eexists. reflexivity.
Qed.
