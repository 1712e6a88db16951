(** Proofs about text tables. *)
From Verif Require Import PyBase PyBaseFacts Model_Printout Spec_Printout Proof_Printout.
From Coq Require Import Lia ZArith.
Local Open Scope Z_scope.

(** ** Lines *)
Lemma sub_cols {A} (d : A) (l : list A) p e : (p <= e <= length l)%nat -> firstn (e - p) (skipn p l) = map (fun j => nth j l d) (seq p (e - p)).
Proof.
  intros H. remember (e - p)%nat as k eqn:K. assert (L : (p + k <= length l)%nat) by lia. clear K H e. revert p L.
  induction k as [|k IH]; intros p L; [reflexivity|]. cbn [seq map]. rewrite <- (IH (S p)) by lia.
  assert (E : skipn p l = nth p l d :: skipn (S p) l).
  { clear IH. assert (Lp : (p < length l)%nat) by lia. clear L. revert p Lp. induction l as [|x l IHl]; intros p Lp; [cbn in Lp; lia|].
    destruct p as [|p]; [reflexivity|]. cbn [nth]. cbn [skipn] in *. apply IHl. cbn in Lp. lia. }
  rewrite E. reflexivity.
Qed.
Lemma format_line_ok pad (w : nat -> Z) l cols : format_line pad (map w cols) (map (fun j => nth j l []) cols) = Ok (line pad w l cols).
Proof.
  induction cols as [|j cols IH]; [reflexivity|]. cbn [map format_line]. rewrite IH. cbn [rbind]. unfold line. cbn [flat_map].
  unfold slot, left_justify, spaces. rewrite <- !app_assoc. reflexivity.
Qed.
Lemma center_ok w x : centered w x (center w x).
Proof.
  unfold centered, center, spaces. set (k := Z.max 0 (w - zlen x)).
  assert (H : 0 <= k / 2 /\ k / 2 <= k - k / 2 <= k / 2 + 1).
  { assert (0 <= k) by lia. pose proof (Z.div_mod k 2 ltac:(lia)). pose proof (Z.mod_pos_bound k 2 ltac:(lia)). lia. }
  exists (Z.to_nat (k / 2)), (Z.to_nat (k - k / 2)). split; [reflexivity|]. split; [lia|]. split.
  - intros L. rewrite !zlen_app. unfold zlen at 1 3. rewrite !repeat_length. lia.
  - intros L. assert (k = 0) as -> by lia. cbn. apply app_nil_r.
Qed.

(** ** Blocks of columns *)
Lemma take_ok display pad w : forall k i acc, (0 < k)%nat ->
  exists e wd, take_columns display pad acc i (map w (seq i k)) = (wd, e) /\ (i < e <= i + k)%nat /\ wd = acc + width_of pad w (seq i (e - i)) /\
  ((e < i + k)%nat -> exists d, display = Some d /\ d < wd) /\
  (forall d, display = Some d -> (2 <= e - i)%nat -> acc + width_of pad w (seq i (e - i - 1)) <= d).
Proof.
  intros k. induction k as [|k IH]; intros i acc L; [lia|]. cbn [seq map take_columns].
  set (acc1 := acc + (w i + Z.of_nat pad * 2)).
  destruct (match display with Some d => d <? acc1 | None => false end) eqn:E.
  - exists (S i), acc1. split; [reflexivity|]. split; [lia|]. replace (S i - i)%nat with 1%nat by lia. split; [unfold acc1, width_of; cbn [seq fold_right]; lia|]. split.
    + intros _. destruct display as [d|]; [|discriminate E]. exists d. split; [reflexivity|]. lia.
    + intros d _ Hx. lia.
  - destruct k as [|k].
    + cbn [seq map take_columns]. exists (S i), acc1. split; [reflexivity|]. split; [lia|]. replace (S i - i)%nat with 1%nat by lia. split; [unfold acc1, width_of; cbn [seq fold_right]; lia|]. split; intros; lia.
    + destruct (IH (S i) acc1 ltac:(lia)) as (e & wd & T & B & W & M & F). exists e, wd. split; [exact T|]. split; [lia|].
      replace (e - i)%nat with (S (e - S i)) by lia. split; [cbn [seq width_of fold_right]; unfold acc1 in W; fold (width_of pad w (seq (S i) (e - S i))); lia|]. split.
      * intros Hx. apply M. lia.
      * intros d Ed _. replace (S (e - S i) - 1)%nat with (S (e - S i - 1)) by lia. cbn [seq width_of fold_right].
        fold (width_of pad w (seq (S i) (e - S i - 1))).
        destruct (Nat.le_gt_cases 2 (e - S i)) as [G|G].
        -- specialize (F d Ed G). unfold acc1 in F. lia.
        -- replace (e - S i - 1)%nat with 0%nat by lia. cbn [seq width_of fold_right]. rewrite Ed in E. unfold acc1 in E. lia.
Qed.
Lemma removelast_seq i k : removelast (seq i k) = seq i (k - 1).
Proof.
  destruct k as [|k]; [reflexivity|]. rewrite seq_S, removelast_last. f_equal. lia.
Qed.

Section Render.
Variables (o : options) (t : table) (headers : list pystr) (rows : list (option (list pystr))) (widths : list Z).
Let n := length headers.
Let w (j : nat) : Z := nth j widths 0.
Hypothesis Lw : length widths = n.
Hypothesis Lr : forall l, In (Some l) rows -> (n <= length l)%nat.

Lemma args_ok l p e : (0 < n)%nat -> (p <= e <= n)%nat -> (n <= length l)%nat ->
  (if t_hide_index t then cols_of l p e else nth 0 l [] :: cols_of l p e) = map (fun j => nth j l []) (shown_cols t (seq p (e - p))).
Proof.
  intros P L N. unfold cols_of, shown_cols. rewrite (sub_cols ([] : pystr)) by lia. destruct (t_hide_index t); reflexivity.
Qed.
Lemma ws_ok p e : (p <= e <= n)%nat ->
  (if t_hide_index t then firstn (e - p) (skipn p widths) else nth 0 widths 0 :: firstn (e - p) (skipn p widths)) = map w (shown_cols t (seq p (e - p))).
Proof. intros L. rewrite (sub_cols 0) by lia. unfold shown_cols. destruct (t_hide_index t); reflexivity. Qed.
Lemma rows_ok wd cols (rs : list (option (list pystr))) : (forall l, In (Some l) rs -> In (Some l) rows) -> wd = width_of (t_padding t) w cols ->
  forall F, (forall l, In (Some l) rs -> F l = Ok (line (t_padding t) w l cols)) ->
  exists body, mapM (fun r => match r with
     | None => Ok [[]; center wd (s "..."); []]
     | Some l => let* x := F l in Ok [x] end) rs = Ok body /\ Forall2 (row_lines (t_padding t) w cols) rs body.
Proof.
  intros Hin Hw F HF. induction rs as [|r rs IH]; [exists []; split; [reflexivity|constructor]|].
  destruct IH as (b & E & H); [intros l X; apply Hin; right; exact X|intros l X; apply HF; right; exact X|].
  destruct r as [l|].
  - exists ([line (t_padding t) w l cols] :: b). cbn [mapM]. rewrite (HF l) by (left; reflexivity). cbn [rbind]. rewrite E. cbn [rbind].
    split; [reflexivity|]. constructor; [constructor|exact H].
  - exists ([[]; center wd (s "..."); []] :: b). cbn [mapM rbind]. rewrite E. cbn [rbind]. split; [reflexivity|].
    constructor; [|exact H]. constructor. rewrite <- Hw. apply center_ok.
Qed.
Lemma block_ok p e wd : (0 < p)%nat -> (p < e <= n)%nat -> wd = width_of (t_padding t) w (shown_cols t (seq p (e - p))) ->
  forall x, render_block o t headers rows widths p e wd = Ok x ->
  block_lines o t headers rows w (Nat.eqb p 1) (Nat.eqb e n) (seq p (e - p)) x.
Proof.
  intros P L Hw x. unfold render_block. rewrite ws_ok by lia. set (cols := shown_cols t (seq p (e - p))) in *.
  destruct (rows_ok wd cols rows (fun l H => H) Hw (fun l => format_line (t_padding t) (map w cols) (if t_hide_index t then cols_of l p e else nth 0 l [] :: cols_of l p e))) as (body & Eb & Hb).
  { intros l Hl. rewrite args_ok by (try apply Lr in Hl; lia). apply format_line_ok. }
  intros E.
  assert (T : exists top, (if Nat.eqb p 1 then match t_caption t with Some c => let* x := truncate o c in Ok [center wd x; []] | None => Ok [] end else Ok [[]; []]) = Ok top /\
     (if Nat.eqb p 1 then match t_caption t with
          | None => top = []
          | Some c => exists x y, truncate o c = Ok x /\ centered (width_of (t_padding t) w cols) x y /\ top = [y; []]
          end else top = [[]; []])).
  { destruct (Nat.eqb p 1); [|eexists; split; reflexivity]. destruct (t_caption t) as [c|]; [|eexists; split; reflexivity].
    destruct (truncate o c) as [z|]; [|discriminate E]. eexists. split; [reflexivity|]. exists z, (center wd z). split; [reflexivity|]. split; [rewrite <- Hw; apply center_ok|reflexivity]. }
  destruct T as (top & Et & Ht). rewrite Et in E. cbn [rbind] in E.
  assert (H : (if t_hide_header t then Ok [] else
               let* x := format_line (t_padding t) (map w cols) (if t_hide_index t then cols_of headers p e else nth 0 headers [] :: cols_of headers p e) in
               Ok [x ++ (if Nat.eqb e (length headers) then [] else s " \"); []]) =
             Ok (if t_hide_header t then [] else [line (t_padding t) w headers cols ++ (if Nat.eqb e n then [] else s " \"); []])).
  { destruct (t_hide_header t); [reflexivity|]. rewrite args_ok by (fold n; lia). fold cols. rewrite format_line_ok. reflexivity. }
  rewrite H in E. cbn [rbind] in E. rewrite Eb in E. cbn [rbind] in E. injection E as <-.
  apply block_intro with (cols := cols); [reflexivity|exact Ht|reflexivity|exact Hb].
Qed.
Lemma hide_width p k : (if t_hide_index t then 0 else nth 0 widths 0 + Z.of_nat (t_padding t) * 2) + width_of (t_padding t) w (seq p k) =
  width_of (t_padding t) w (shown_cols t (seq p k)).
Proof. unfold shown_cols. destruct (t_hide_index t); [lia|]. cbn [width_of fold_right]. fold (width_of (t_padding t) w (seq p k)). unfold w. lia. Qed.
Lemma blocks_ok : forall fuel p out, (1 <= p <= n)%nat -> render_blocks fuel o t headers rows widths p = Ok out ->
  exists gs, List.concat gs = seq p (n - p) /\ wraps o t w gs /\ blocks_lines o t headers rows w (Nat.eqb p 1) gs out.
Proof.
  induction fuel as [|f IH]; intros p out P; cbn [render_blocks]; fold n.
  - destruct (Nat.ltb_spec p n); [discriminate|]. intros E. injection E as <-. exists []. replace (n - p)%nat with 0%nat by lia. split; [reflexivity|]. split; [exact Logic.I|constructor].
  - destruct (Nat.ltb_spec p n) as [L|L].
    2:{ intros E. injection E as <-. exists []. replace (n - p)%nat with 0%nat by lia. split; [reflexivity|]. split; [exact Logic.I|constructor]. }
    assert (Sk : skipn p widths = map w (seq p (n - p))).
    { unfold w. rewrite <- (sub_cols 0) by lia. rewrite firstn_all2; [reflexivity|rewrite skipn_length; lia]. }
    rewrite Sk. set (acc := if t_hide_index t then 0 else _).
    destruct (take_ok (o_display o) (t_padding t) w (n - p) p acc ltac:(lia)) as (e & wd & T & B & W & M & F).
    rewrite T. pose proof (hide_width p (e - p)) as HW. fold acc in HW. rewrite HW in W.
    destruct (render_block o t headers rows widths p e wd) as [x|] eqn:EB; [|discriminate]. cbn [rbind].
    destruct (render_blocks f o t headers rows widths e) as [y|] eqn:ER; [|discriminate]. cbn [rbind]. intros E. injection E as <-.
    destruct (IH e y ltac:(lia) ER) as (gs & C & Wr & Bl). replace (Nat.eqb e 1) with false in Bl by (symmetry; apply Nat.eqb_neq; lia).
    exists (seq p (e - p) :: gs). split; [|split].
    + cbn [List.concat]. rewrite C. replace (n - p)%nat with ((e - p) + (n - e))%nat by lia. rewrite seq_app. repeat f_equal; lia.
    + cbn [wraps]. split; [|split; [|split; [|exact Wr]]].
      * intros N. apply (f_equal (@length nat)) in N. rewrite seq_length in N. cbn in N. lia.
      * intros d Ed L2. rewrite seq_length in L2. rewrite removelast_seq. rewrite <- hide_width. fold acc. apply F; [exact Ed|lia].
      * intros N. rewrite <- W. apply M. destruct (Nat.eq_dec e n) as [->|]; [|lia]. rewrite Nat.sub_diag in C. cbn in C.
        exfalso. destruct gs as [|g r]; [exact (N eq_refl)|]. cbn [List.concat] in C. apply app_eq_nil in C. destruct C as [C _]. cbn [wraps] in Wr. destruct Wr as [Wr _]. exact (Wr C).
    + apply blocks_more; [|exact Bl].
      assert (Lst : (match gs with [] => true | _ => false end) = Nat.eqb e n).
      { destruct gs as [|g r].
        - symmetry. apply Nat.eqb_eq. apply (f_equal (@length nat)) in C. rewrite seq_length in C. cbn in C. lia.
        - symmetry. apply Nat.eqb_neq. intros ->. rewrite Nat.sub_diag in C. cbn [List.concat seq] in C. apply app_eq_nil in C. destruct C as [C _]. cbn [wraps] in Wr. destruct Wr as [Wr _]. exact (Wr C). }
      rewrite Lst. apply block_ok with (wd := wd); [lia|lia|exact W|exact EB].
Qed.
(** enough fuel, and nothing raises *)
Lemma block_total p e wd : (0 < p)%nat -> (p < e <= n)%nat ->
  (forall c, t_caption t = Some c -> exists x, truncate o c = Ok x) ->
  exists x, render_block o t headers rows widths p e wd = Ok x.
Proof.
  intros P L Cap. unfold render_block. rewrite ws_ok by lia. set (cols := shown_cols t (seq p (e - p))) in *.
  assert (T : exists top, (if Nat.eqb p 1 then match t_caption t with Some c => let* x := truncate o c in Ok [center wd x; []] | None => Ok [] end else Ok [[]; []]) = Ok top).
  { destruct (Nat.eqb p 1); [|eexists; reflexivity]. destruct (t_caption t) as [c|]; [|eexists; reflexivity].
    destruct (Cap c eq_refl) as (z & ->). eexists. reflexivity. }
  destruct T as (top & ->). cbn [rbind].
  assert (H : exists hd, (if t_hide_header t then Ok [] else
               let* x := format_line (t_padding t) (map w cols) (if t_hide_index t then cols_of headers p e else nth 0 headers [] :: cols_of headers p e) in
               Ok [x ++ (if Nat.eqb e (length headers) then [] else s " \"); []]) = Ok hd).
  { destruct (t_hide_header t); [eexists; reflexivity|]. rewrite args_ok by (fold n; lia). fold cols. rewrite format_line_ok. eexists. reflexivity. }
  destruct H as (hd & ->). cbn [rbind].
  assert (R : forall rs, (forall l, In (Some l) rs -> In (Some l) rows) -> exists b, mapM (fun r => match r with
      | None => Ok [[]; center wd (s "..."); []]
      | Some l => let* x := format_line (t_padding t) (map w cols) (if t_hide_index t then cols_of l p e else nth 0 l [] :: cols_of l p e) in Ok [x] end) rs = Ok b).
  { induction rs as [|r rs IH]; intros Hin; [eexists; reflexivity|]. destruct IH as (b & Eb); [intros l Hl; apply Hin; right; exact Hl|].
    cbn [mapM]. destruct r as [l|].
    - rewrite args_ok by (try (specialize (Lr l (Hin l (or_introl eq_refl)))); lia). fold cols. rewrite format_line_ok. cbn [rbind]. rewrite Eb. eexists. reflexivity.
    - cbn [rbind]. rewrite Eb. eexists. reflexivity. }
  destruct (R rows (fun l H => H)) as (b & Eb). rewrite Eb. eexists. reflexivity.
Qed.
Lemma blocks_total : (forall c, t_caption t = Some c -> exists x, truncate o c = Ok x) ->
  forall fuel p, (1 <= p)%nat -> (n <= fuel + p)%nat -> exists out, render_blocks fuel o t headers rows widths p = Ok out.
Proof.
  intros Cap. induction fuel as [|f IH]; intros p P L; cbn [render_blocks]; fold n; destruct (Nat.ltb_spec p n) as [H|H]; try lia; try (eexists; reflexivity).
  assert (Sk : skipn p widths = map w (seq p (n - p))).
  { unfold w. rewrite <- (sub_cols 0) by lia. rewrite firstn_all2; [reflexivity|rewrite skipn_length; lia]. }
  rewrite Sk. set (acc := if t_hide_index t then 0 else _).
  destruct (take_ok (o_display o) (t_padding t) w (n - p) p acc ltac:(lia)) as (e & wd & T & B & _). rewrite T.
  destruct (block_total p e wd ltac:(lia) ltac:(lia) Cap) as (x & ->). cbn [rbind].
  destruct (IH e ltac:(lia) ltac:(lia)) as (y & ->). eexists. reflexivity.
Qed.
End Render.
