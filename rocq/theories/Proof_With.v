(** Lemmas for C115. *)
From Verif Require Import PyBase PyBaseFacts Model_Text Model_Heap Model_Layer Model_Types Model_Msgpack Model_Document Model_Codec Model_Lazy Model_Collection Model_With
  Spec_Layer Spec_Msgpack Spec_Codec Spec_Lazy Spec_Collection Spec_With Proof_Collection Proof_Collection2.
Local Open Scope Z_scope.

(** ** an open file: as the writer alone *)
Lemma flush_open x : fw_closed x = false -> fw_flush x = let (w1, r) := writer_flush (fw_w x) in (mkF w1 (fw_old x) false, r).
Proof.
  destruct x as [w old cl]. cbn [fw_closed]. intros ->. unfold fw_flush, writer_flush. cbn [fw_w fw_old fw_closed].
  destruct (w_count w >? 0); [|reflexivity]. destruct (pack (MBin (w_comp w (w_block w)))) as [p|e]; reflexivity.
Qed.
Lemma add_open x data : fw_closed x = false -> fw_add x data = let (w1, r) := writer_add (fw_w x) data in (mkF w1 (fw_old x) false, r).
Proof.
  destruct x as [w old cl]. cbn [fw_closed]. intros ->. unfold fw_add, writer_add. cbn [fw_w fw_old fw_closed].
  destruct (pack (MBin data)) as [p|e]; [|reflexivity]. cbn [w_count w_per]. destruct (w_count w + 1 =? w_per w); [|reflexivity].
  rewrite flush_open by reflexivity. reflexivity.
Qed.
Lemma write_open h x d : fw_closed x = false -> fw_write h x d = let '(h1, w1, r) := writer_write h (fw_w x) d in (h1, mkF w1 (fw_old x) false, r).
Proof.
  intros C. unfold fw_write, writer_write. destruct (wdoc_data h d) as [h1 [data|e]].
  - rewrite add_open by exact C. destruct (writer_add (fw_w x) data). reflexivity.
  - destruct x. cbn in C. subst. reflexivity.
Qed.
(** a flush that fails leaves what it could not pack *)
Definition stuck (w : writer) (e : exn) : Prop := w_count w > 0 /\ pack (MBin (w_comp w (w_block w))) = Err e.
Lemma flush_stuck w w1 e : writer_flush w = (w1, Err e) -> w1 = w /\ stuck w e.
Proof.
  unfold writer_flush, stuck. destruct (w_count w >? 0) eqn:C; [|discriminate]. destruct (pack (MBin (w_comp w (w_block w)))) as [p|e'] eqn:P; [discriminate|].
  intros H. inversion H; subst. split; [reflexivity|]. split; [apply Z.gtb_lt in C; lia|reflexivity].
Qed.
Lemma flush_comp w : w_comp (fst (writer_flush w)) = w_comp w.
Proof. unfold writer_flush. destruct (w_count w >? 0); [|reflexivity]. destruct (pack (MBin (w_comp w (w_block w)))); reflexivity. Qed.
Lemma write_comp h w d : w_comp (snd (fst (writer_write h w d))) = w_comp w.
Proof.
  unfold writer_write. destruct (wdoc_data h d) as [h1 [data|e]]; [|reflexivity]. unfold writer_add. destruct (pack (MBin data)) as [p|e]; [|reflexivity].
  cbn [w_count w_per]. destruct (w_count w + 1 =? w_per w); [|reflexivity].
  match goal with |- context [writer_flush ?x] => pose proof (flush_comp x) as Q; destruct (writer_flush x); exact Q end.
Qed.
(** a write that fails has left the writer, or is stuck *)
Lemma write_fails h w d h1 w1 e : writer_write h w d = (h1, w1, Err e) -> w1 = w \/ stuck w1 e.
Proof.
  unfold writer_write. destruct (wdoc_data h d) as [h2 [data|e2]].
  - unfold writer_add. destruct (pack (MBin data)) as [p|e3] eqn:P.
    + cbn [w_count w_per]. destruct (w_count w + 1 =? w_per w).
      * match goal with |- context [writer_flush ?x] => destruct (writer_flush x) as [w2 r] eqn:F end. intros H. inversion H; subst. apply flush_stuck in F. destruct F as [-> F]. right. exact F.
      * discriminate.
    + intros H. inversion H; subst. left. reflexivity.
  - intros H. inversion H; subst. left. reflexivity.
Qed.

(** ** the body *)
Definition same_file (x x1 : fwriter) : Prop := fw_closed x1 = false /\ fw_old x1 = fw_old x /\ w_comp (fw_w x1) = w_comp (fw_w x).
Lemma body_done raised ops : forall h x h1 x1 a, fw_closed x = false -> fw_body h x ops raised = (h1, x1, a) ->
  same_file x x1 /\
  ((exists e, a = Err e /\ stuck (fw_w x1) e) \/
   exists done rest h2, ops = done ++ rest /\ writer_run h (fw_w x) done = (let (w1, r) := writer_flush (fw_w x1) in (h2, w1, r)) /\
     snd (fw_body h x done None) = Ok tt /\
     match rest with [] => a = match raised with Some e => Err e | None => Ok tt end | o :: _ => exists e, a = Err e /\ snd (fw_body h x (done ++ [o]) None) = Err e end).
Proof.
  induction ops as [|o ops IH]; intros h x h1 x1 a C E.
  - cbn [fw_body] in E. inversion E; subst. split; [repeat split; exact C|]. right. exists [], [], h1. repeat (split; [reflexivity|]). reflexivity.
  - cbn [fw_body] in E. destruct o as [d|]; cbn [fw_call] in E.
    + rewrite write_open in E by exact C. destruct (writer_write h (fw_w x) d) as [[h2 w2] r] eqn:W. pose proof (write_comp h (fw_w x) d) as Cp. rewrite W in Cp. cbn [fst snd] in Cp.
      destruct r as [[]|e].
      * apply IH in E; [|reflexivity]; destruct E as [(S1 & S2 & S3) R]. cbn [fw_old fw_w] in *. split; [split; [exact S1|split; [exact S2|congruence]]|].
        destruct R as [R|(done & rest & h3 & E1 & E2 & E4 & E3)]; [left; exact R|]. right. exists (WWrite d :: done), rest, h3. split; [rewrite E1; reflexivity|].
        split; [cbn [writer_run]; rewrite W; exact E2|]. cbn [app fw_body fw_call]. rewrite !write_open by exact C. rewrite W. split; [exact E4|exact E3].
      * inversion E; subst. split; [repeat split; exact Cp|]. cbn [fw_w]. destruct (write_fails _ _ _ _ _ _ W) as [->|S0]; [|left; exists e; split; [reflexivity|exact S0]].
        right. exists [], (WWrite d :: ops), h. split; [reflexivity|]. split; [reflexivity|]. split; [reflexivity|]. exists e. split; [reflexivity|].
        cbn [app fw_body fw_call]. rewrite write_open by exact C. rewrite W. reflexivity.
    + rewrite flush_open in E by exact C. destruct (writer_flush (fw_w x)) as [w2 r] eqn:F. pose proof (flush_comp (fw_w x)) as Cp. rewrite F in Cp. cbn [fst] in Cp.
      destruct r as [[]|e].
      * apply IH in E; [|reflexivity]; destruct E as [(S1 & S2 & S3) R]. cbn [fw_old fw_w] in *. split; [split; [exact S1|split; [exact S2|congruence]]|].
        destruct R as [R|(done & rest & h3 & E1 & E2 & E4 & E3)]; [left; exact R|]. right. exists (WFlush :: done), rest, h3. split; [rewrite E1; reflexivity|].
        split; [cbn [writer_run]; rewrite F; exact E2|]. cbn [app fw_body fw_call]. rewrite !flush_open by exact C. rewrite F. split; [exact E4|exact E3].
      * inversion E; subst. split; [repeat split; exact Cp|]. left. exists e. split; [reflexivity|]. apply flush_stuck in F. destruct F as [-> F]. exact F.
Qed.
Lemma stuck_flush w e : stuck w e -> writer_flush w = (w, Err e).
Proof. intros [C P]. unfold writer_flush. replace (w_count w >? 0) with true by (symmetry; apply Z.gtb_lt; lia). rewrite P. reflexivity. Qed.

Lemma at_open fs p m c per fs1 x : m <> ModeA -> writer_at fs p m c per = (fs1, Ok x) ->
  fw_closed x = false /\ fw_old x = [] /\ writer_open c per = Ok (fw_w x) /\ w_comp (fw_w x) = c_comp c /\ fs1 = dset fs p [].
Proof.
  intros Na. unfold writer_at. assert (O : open_out fs p m = Ok (dset fs p [], []) \/ open_out fs p m = Err IOError).
  { unfold open_out. destruct m; [|left; reflexivity|now elim Na]. destruct (dget fs p); auto. }
  destruct O as [O|O]; rewrite O; [|discriminate]. destruct (writer_open c per) as [w|e] eqn:W; cbn [rbind]; [|discriminate]. intros H. inversion H; subst.
  repeat split. cbn [fw_w]. unfold writer_open in W. destruct (pack (MStr (c_name c))); cbn [rbind] in W; [|discriminate W]. destruct (pack (MInt per)); cbn [rbind] in W; [|discriminate W].
  apply Proof_Msgpack.Ok_inj in W. subst w. reflexivity.
Qed.
Lemma with_file : forall fs p m c per fs1 x h ops raised h1 x1 r,
  m <> ModeA -> writer_at fs p m c per = (fs1, Ok x) -> with_writer h x ops raised = (h1, x1, r) ->
  (fw_closed x1 = true /\
   exists done rest, ops = done ++ rest /\ is_file c per h done (held x1) /\
     snd (fw_body h x done None) = Ok tt /\
     match rest with [] => r = match raised with Some e => Err e | None => Ok tt end | o :: _ => exists e, r = Err e /\ snd (fw_body h x (done ++ [o]) None) = Err e end) \/
  (fw_closed x1 = false /\ exists e, r = Err e /\ pack (MBin (c_comp c (w_block (fw_w x1)))) = Err e).
Proof.
  intros fs p m c per fs1 x h ops raised h1 x1 r Na At W. destruct (at_open _ _ _ _ _ _ _ Na At) as (C & O & Wo & Wc & _).
  unfold with_writer in W. destruct (fw_body h x ops raised) as [[h2 x2] a] eqn:B. destruct (body_done _ _ _ _ _ _ _ C B) as [(S1 & S2 & S3) R].
  unfold fw_close in W. rewrite flush_open in W by exact S1.
  destruct R as [(e & -> & St)|(done & rest & h3 & E1 & E2 & E4 & E3)].
  - rewrite (stuck_flush _ _ St) in W. inversion W; subst. right. split; [reflexivity|]. exists e. split; [reflexivity|]. cbn [fw_w]. rewrite <- Wc, <- S3. exact (proj2 St).
  - destruct (writer_flush (fw_w x2)) as [w1 [[]|e]] eqn:F; inversion W; subst; cbn [fw_w fw_closed fw_old].
    + left. split; [reflexivity|]. exists done, rest. split; [reflexivity|]. split; [|split; [exact E4|exact E3]].
      exists (fw_w x), h3, w1. split; [exact Wo|]. split; [exact E2|]. unfold held. cbn [fw_w fw_old]. rewrite S2, O. reflexivity.
    + right. split; [reflexivity|]. exists e. split; [reflexivity|]. apply flush_stuck in F. destruct F as [-> [_ P]]. rewrite <- Wc, <- S3. exact P.
Qed.
Lemma with_read : forall fs p m c per fs1 x h ops raised h1 x1 r g,
  m <> ModeA -> writer_at fs p m c per = (fs1, Ok x) -> with_writer h x ops raised = (h1, x1, r) -> fw_closed x1 = true -> all_proper ops -> undoes g c ->
  exists done rest rd, ops = done ++ rest /\ snd (fw_body h x done None) = Ok tt /\
    match rest with [] => r = match raised with Some e => Err e | None => Ok tt end | o :: _ => exists e, r = Err e /\ snd (fw_body h x (done ++ [o]) None) = Err e end /\
    reader_at g (saved fs1 p x1) p = Ok rd /\
    forall fuel, (length (written h done) < fuel)%nat -> exists r1 ms, reader_iter fuel rd = (r1, Ok ms) /\ map md_raw ms = written_data h done.
Proof.
  intros fs p m c per fs1 x h ops raised h1 x1 r g Na At W Cl Pr Un.
  destruct (with_file _ _ _ _ _ _ _ _ _ _ _ _ _ Na At W) as [(_ & done & rest & E1 & F & E4 & E3)|[C _]]; [|congruence].
  assert (Pd : all_proper done) by (intros d I; apply Pr; rewrite E1; apply in_app_iff; left; exact I).
  destruct (iterate _ _ _ _ _ _ F Pd Un) as (rd & O & It). exists done, rest, rd. split; [exact E1|]. split; [exact E4|]. split; [exact E3|]. split.
  - unfold reader_at, open_in, saved. rewrite dget_dset_same. exact O.
  - intros fuel Hf. destruct (It fuel Hf) as (r1 & ms & I1 & I2 & _). exists r1, ms. split; assumption.
Qed.
Lemma modes : forall fs p m c per fs1 x, writer_at fs p m c per = (fs1, x) ->
  (forall q y, q <> p -> dget (saved fs1 p y) q = dget fs q) /\
  (m = ModeX -> dget fs p <> None -> x = Err IOError /\ fs1 = fs) /\
  (m <> ModeA -> (exists w, x = Ok w) -> dget fs1 p = Some []) /\
  (forall w, x = Ok w -> m = ModeA -> exists new, held w = match dget fs p with Some old => old | None => [] end ++ new) /\
  (forall g, dget fs p = None -> reader_at g fs p = Err IOError).
Proof.
  intros fs p m c per fs1 x E. split; [|split; [|split; [|split]]].
  - intros q y Ne. unfold saved. rewrite dget_dset_other by exact Ne. unfold writer_at, open_out in E.
    destruct m, (dget fs p); inversion E; subst; try reflexivity; apply dget_dset_other; exact Ne.
  - intros -> Hp. unfold writer_at, open_out in E. destruct (dget fs p); [|now elim Hp]. inversion E. split; reflexivity.
  - intros Na [w ->]. destruct (at_open _ _ _ _ _ _ _ Na E) as (_ & _ & _ & _ & ->). apply dget_dset_same.
  - intros w -> ->. unfold writer_at, open_out in E. destruct (dget fs p) as [old|].
    + destruct (writer_open c per) as [v|]; cbn [rbind] in E; inversion E; subst. eexists. reflexivity.
    + destruct (writer_open c per) as [v|]; cbn [rbind] in E; inversion E; subst. eexists. reflexivity.
  - intros g Hp. unfold reader_at, open_in. rewrite Hp. reflexivity.
Qed.

(** ** a closed file *)
Lemma closed_flush x : fw_closed x = true -> fst (fw_flush x) = x.
Proof.
  intros C. unfold fw_flush. destruct (w_count (fw_w x) >? 0); [|reflexivity]. destruct (pack (MBin (w_comp (fw_w x) (w_block (fw_w x))))); [|reflexivity]. rewrite C. reflexivity.
Qed.
Lemma closed_call h x c : fw_closed x = true -> held (snd (fst (fw_call h x c))) = held x /\ fw_closed (snd (fst (fw_call h x c))) = true.
Proof.
  intros C. destruct c as [d| |]; cbn [fw_call].
  - unfold fw_write. destruct (wdoc_data h d) as [h1 [data|e]]; [|split; [reflexivity|exact C]]. unfold fw_add. destruct (pack (MBin data)) as [p|e]; [|split; [reflexivity|exact C]].
    destruct (w_count (fw_w x) + 1 =? w_per (fw_w x)).
    + match goal with |- context [fw_flush ?y] => pose proof (closed_flush y C) as Q; destruct (fw_flush y) as [y1 r] end. cbn [fst] in Q. subst y1. split; [reflexivity|exact C].
    + split; [reflexivity|exact C].
  - pose proof (closed_flush x C) as Q. destruct (fw_flush x) as [y r]. cbn [fst snd] in *. subst y. split; [reflexivity|exact C].
  - unfold fw_close. pose proof (closed_flush x C) as Q. destruct (fw_flush x) as [y [u|e]]; cbn [fst snd] in *; subst y; split; try reflexivity; exact C.
Qed.
Lemma closed_stays : forall cs h x h1 x1 l, fw_closed x = true -> fw_calls h x cs = (h1, x1, l) ->
  held x1 = held x /\ fw_closed x1 = true /\
  (w_count (fw_w x1) > 0 -> forall c, In c [FFlush; FClose] -> exists e, snd (fw_call h1 x1 c) = Err e) /\
  (w_count (fw_w x1) <= 0 -> fw_call h1 x1 FClose = (h1, x1, Ok tt)).
Proof.
  induction cs as [|c cs IH]; intros h x h1 x1 l C E.
  - cbn [fw_calls] in E. inversion E; subst. split; [reflexivity|]. split; [exact C|]. split.
    + intros P c I. assert (F : exists e, fw_flush x1 = (x1, Err e)).
      { unfold fw_flush. replace (w_count (fw_w x1) >? 0) with true by (symmetry; apply Z.gtb_lt; lia).
        destruct (pack (MBin (w_comp (fw_w x1) (w_block (fw_w x1))))); [rewrite C|]; eexists; reflexivity. }
      destruct F as [e F]. exists e. destruct I as [<-|[<-|[]]]; cbn [fw_call]; unfold fw_close; rewrite F; reflexivity.
    + intros P. cbn [fw_call]. unfold fw_close, fw_flush. replace (w_count (fw_w x1) >? 0) with false by (symmetry; rewrite Z.gtb_ltb; apply Z.ltb_ge; lia).
      destruct x1 as [w old cl]. cbn [fw_closed fw_w fw_old] in *. rewrite C. reflexivity.
  - cbn [fw_calls] in E. destruct (fw_call h x c) as [[h2 x2] a] eqn:F. destruct (fw_calls h2 x2 cs) as [[h3 x3] l3] eqn:G. inversion E; subst.
    pose proof (closed_call h x c C) as Q. rewrite F in Q. cbn [fst snd] in Q. destruct Q as [Q1 Q2]. destruct (IH _ _ _ _ _ Q2 G) as (R1 & R2 & R3). split; [congruence|]. split; [exact R2|exact R3].
Qed.

(** ** exceptions that are caught *)
Definition as_call (o : wop) : fcall := match o with WWrite d => FWrite d | WFlush => FFlush end.
Lemma caught ops : forall h x h1 x1, fw_closed x = false -> fw_calls h x (map as_call ops) = (h1, x1, expected h ops) ->
  fw_closed x1 = false /\ fw_old x1 = fw_old x /\ forall h0, writer_run h0 (fw_w x) (accepted h ops) = let (w1, r) := writer_flush (fw_w x1) in (h0, w1, r).
Proof.
  induction ops as [|o ops IH]; intros h x h1 x1 C E.
  - cbn in E. inversion E; subst. split; [exact C|]. split; reflexivity.
  - destruct o as [d|]; cbn [map as_call fw_calls fw_call] in E.
    + rewrite write_open in E by exact C. cbn [expected accepted] in *. unfold refusal in *. unfold writer_write in E.
      destruct (wdoc_data h d) as [h2 [data|e]].
      * destruct (pack (MBin data)) as [p|e] eqn:P.
        -- destruct (writer_add (fw_w x) data) as [w2 r] eqn:A. destruct (fw_calls h2 _ (map as_call ops)) as [[h3 x3] l] eqn:G. inversion E; subst.
           apply IH in G; [|reflexivity]. cbn [fw_w fw_old] in G. destruct G as (G1 & G2 & G3). split; [exact G1|]. split; [exact G2|]. intros h0.
           cbn [writer_run]. unfold writer_write. cbn [wdoc_data md_raw]. rewrite A. apply G3.
        -- unfold writer_add in E. rewrite P in E. destruct (fw_calls h2 _ (map as_call ops)) as [[h3 x3] l] eqn:G. inversion E; subst.
           apply IH in G; [|reflexivity]. cbn [fw_w fw_old] in G. exact G.
      * destruct (fw_calls h2 _ (map as_call ops)) as [[h3 x3] l] eqn:G. inversion E; subst. apply IH in G; [|reflexivity]. cbn [fw_w fw_old] in G. exact G.
    + rewrite flush_open in E by exact C. cbn [expected accepted] in *. destruct (writer_flush (fw_w x)) as [w2 r] eqn:F. destruct (fw_calls h _ (map as_call ops)) as [[h3 x3] l] eqn:G.
      inversion E; subst. apply IH in G; [|reflexivity]. cbn [fw_w fw_old] in G. destruct G as (G1 & G2 & G3). split; [exact G1|]. split; [exact G2|]. intros h0.
      cbn [writer_run]. rewrite F. apply G3.
Qed.
Lemma skips : forall fs p m c per fs1 x h ops h1 x1 x2 h0,
  m <> ModeA -> writer_at fs p m c per = (fs1, Ok x) -> fw_calls h x (map (fun o => match o with WWrite d => FWrite d | WFlush => FFlush end) ops) = (h1, x1, expected h ops) ->
  fw_close x1 = (x2, Ok tt) -> is_file c per h0 (accepted h ops) (held x2).
Proof.
  intros fs p m c per fs1 x h ops h1 x1 x2 h0 Na At E Cl. destruct (at_open _ _ _ _ _ _ _ Na At) as (C & O & Wo & _ & _).
  destruct (caught ops h x h1 x1 C E) as (C1 & O1 & R). unfold fw_close in Cl. rewrite flush_open in Cl by exact C1. specialize (R h0).
  destruct (writer_flush (fw_w x1)) as [w1 [[]|e]]; inversion Cl; subst. exists (fw_w x), h0, w1. split; [exact Wo|]. split; [exact R|].
  unfold held. cbn [fw_w fw_old]. rewrite O1, O. reflexivity.
Qed.
