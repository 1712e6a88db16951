(** Reading document files of any origin. *)
From Verif Require Import PyBase PyBaseFacts Model_Heap Model_Msgpack Model_Document Model_Codec Model_Lazy Model_Collection Spec_Collection Spec_AnyFile Proof_Msgpack Proof_Cut Proof_Collection.
Local Open Scope Z_scope.

(** ** every file has exactly one reading *)
Lemma shorter bs o r : unpack1 bs = Ok (o, r) -> (length r < length bs)%nat.
Proof. intros H. exact (unpack_shrinks _ bs o r H). Qed.
Lemma unpack_eats bs o r : unpack1 bs = Ok (o, r) -> exists q, bs = q ++ r.
Proof. exact (cut_eats 0 unpack1 unpack1 bs o r (cut_unpack1 1)). Qed.
Lemma next_cases bs : over bs \/ (exists e, bad bs e) \/ (exists o r, unpack1 bs = Ok (o, r) /\ o <> MNil /\ ~ is_bytes o) \/ (exists x r, unpack1 bs = Ok (MBin x, r)).
Proof.
  destruct (unpack1 bs) as [[o r]|e] eqn:E.
  - destruct o; first [left; right; eexists; (exact E || reflexivity)|right; right; right; eexists; eexists; (exact E || reflexivity)|right; right; left; eexists; eexists; split; [(exact E || reflexivity)|split; [discriminate|intros []]]].
  - assert (D : e = StopIteration \/ e <> StopIteration) by (destruct e; (left; reflexivity) || (right; discriminate)). destruct D as [->|N]; [left; left; exact E|right; left; exists e; split; assumption].
Qed.
Lemma in_block_total p : forall n bs off, (length bs <= n)%nat -> exists ds e, in_block p off bs ds e.
Proof.
  induction n as [|n IH]; intros bs off L.
  - destruct bs; [|simpl in L; lia]. exists [], Finished. apply ib_over. left. reflexivity.
  - destruct (next_cases bs) as [O|[[e B]|[(o & r & E & N & NB)|(x & r & E)]]].
    + exists [], Finished. exact (ib_over p off bs O).
    + exists [], (Raised e). exact (ib_bad p off bs e B).
    + exists [], (Raised ValueError). exact (ib_other p off bs o r E N NB).
    + destruct (str_eqb_spec (firstn 4 x) (s "DM_1")) as [M|M]; [|exists [], (Raised ValueError); exact (ib_foreign p off bs x r E M)].
      pose proof (shorter _ _ _ E). destruct (IH r (off + (zlen bs - zlen r)) ltac:(lia)) as (ds & e & I). eexists; eexists. exact (ib_doc p off bs x r ds e E M I).
Qed.
Ltac clash := match goal with
  | H : over ?b, K : over ?b |- _ => fail 1
  | H : over _ |- _ => destruct H as [H|[? H]]
  | H : bad _ _ |- _ => let N := fresh "N" in destruct H as [H N]
  end.
Ltac same := repeat clash; try (exfalso; congruence); repeat match goal with
  | H : unpack1 ?b = Ok _, K : unpack1 ?b = Ok _ |- _ => rewrite H in K; injection K as <- <-
  | H : unpack1 ?b = Err _, K : unpack1 ?b = Err _ |- _ => rewrite H in K; injection K as <-
  end; try (exfalso; cbn in *; tauto); try (exfalso; congruence).
Lemma in_block_unique p off bs ds e : in_block p off bs ds e -> forall ds' e', in_block p off bs ds' e' -> ds = ds' /\ e = e'.
Proof.
  induction 1 as [off bs O|off bs e B|off bs o r E N NB|off bs x r E M|off bs x r ds e E M I IH]; intros ds' e' H;
    inversion H as [off' bs' O'|off' bs' e'' B'|off' bs' o' r' E' N' NB'|off' bs' x' r' E' M'|off' bs' x' r' ds'' e'' E' M' I']; subst; auto; same.
  - auto.
  - destruct (IH _ _ I') as [-> ->]. auto.
Qed.
Lemma blocks_total dec : forall n bs p, (length bs <= n)%nat -> exists l e, blocks_of dec p bs l e.
Proof.
  induction n as [|n IH]; intros bs p L.
  - destruct bs; [|simpl in L; lia]. exists [], Finished. apply bo_over. left. reflexivity.
  - destruct (next_cases bs) as [O|[[e B]|[(o & r & E & N & NB)|(x & r & E)]]].
    + exists [], Finished. exact (bo_over dec p bs O).
    + exists [], (Raised e). exact (bo_bad dec p bs e B).
    + exists [], (Raised TypeError). exact (bo_other dec p bs o r E N NB).
    + destruct (dec x) as [y|e] eqn:D; [|exists [], (Raised e); exact (bo_codec dec p bs x r e E D)].
      pose proof (shorter _ _ _ E). destruct (IH r (p + (zlen bs - zlen r)) ltac:(lia)) as (l & e & I). eexists; eexists. exact (bo_block dec p bs x r y l e E D I).
Qed.
Lemma blocks_unique dec p bs l e : blocks_of dec p bs l e -> forall l' e', blocks_of dec p bs l' e' -> l = l' /\ e = e'.
Proof.
  induction 1 as [p bs O|p bs e B|p bs o r E N NB|p bs x r e E D|p bs x r y l e E D I IH]; intros l' e' H;
    inversion H as [p' bs' O'|p' bs' e'' B'|p' bs' o' r' E' N' NB'|p' bs' x' r' e'' E' D'|p' bs' x' r' y' l'' e'' E' D' I']; subst; auto; same.
  - auto.
  - rewrite D in D'. injection D' as <-. auto.
  - rewrite D in D'. injection D' as <-. destruct (IH _ _ I') as [-> ->]. auto.
Qed.
Lemma docs_total l : forall e, exists ds e', docs_in l e ds e'.
Proof.
  induction l as [|[p y] l IH]; intros e; [exists [], e; constructor|]. destruct (in_block_total p (length y) y 0 (le_n _)) as (ds & [|x] & I).
  - destruct (IH e) as (ds' & e' & J). eexists; eexists. exact (di_block p y l e ds ds' e' I J).
  - eexists; eexists. exact (di_broken p y l e ds x I).
Qed.
Lemma docs_unique l e ds e1 : docs_in l e ds e1 -> forall ds' e1', docs_in l e ds' e1' -> ds = ds' /\ e1 = e1'.
Proof.
  induction 1 as [e|p y l e ds ds' e' I J IH|p y l e ds x I]; intros ds2 e2 H; inversion H as [e''|p' y' l' e'' ds3 ds3' e3 I' J'|p' y' l' e'' ds3 x' I']; subst; auto;
    destruct (in_block_unique _ _ _ _ _ I _ _ I') as [E1 E2]; try discriminate E2; subst.
  - destruct (IH _ _ J') as [-> ->]. auto.
  - auto.
Qed.

(** ** one value *)
Lemma u_over bs t : over bs -> exists u, u_next (mkU bs t) = (u, Ok None).
Proof. unfold u_next, u_next1. cbn [u_rest]. intros [H|[r H]]; rewrite H; eauto. Qed.
Lemma u_bad bs t e : bad bs e -> exists u, u_next (mkU bs t) = (u, Err e).
Proof. unfold u_next, u_next1. cbn [u_rest]. intros [H N]. rewrite H. destruct e; try congruence; eauto. Qed.
Lemma u_value bs t o r : unpack1 bs = Ok (o, r) -> o <> MNil -> u_next (mkU bs t) = (mkU r (t + (zlen bs - zlen r)), Ok (Some o)).
Proof. unfold u_next, u_next1. cbn [u_rest u_tell]. intros H N. rewrite H. destruct o; try congruence; reflexivity. Qed.
Lemma not_bytes o e : ~ is_bytes o -> as_bytes e o = Err e.
Proof. destruct o; cbn; tauto. Qed.
Lemma magic_open x ref : firstn 4 x <> s "DM_1" -> document_of (MBin x) ref = Err ValueError.
Proof. intros M. unfold document_of, as_bytes. cbn [rbind]. unfold md_open. change (list_eqb N.eqb (firstn 4 x) magic) with (str_eqb (firstn 4 x) magic). destruct (str_eqb_spec (firstn 4 x) magic); [contradiction|reflexivity]. Qed.

(** ** a block *)
Lemma block_step p off bs ds e b : in_block p off bs ds e -> b_pos b = p -> block_tell b = off -> u_rest (b_unp b) = bs ->
  exists b1, b_data b1 = b_data b /\ b_pos b1 = p /\
  match ds with
  | [] => match e with
          | Finished => block_raw b = (b1, Ok None)
          | Raised x => block_raw b = (b1, Err x) \/ (x = ValueError /\ exists o, block_raw b = (b1, Ok (Some o)) /\ forall ref, document_of o ref = Err ValueError)
          end
  | d :: ds' => fst d = (p, off) /\ block_raw b = (b1, Ok (Some (MBin (snd d)))) /\ (forall ref, document_of (MBin (snd d)) ref = Ok (fresh (ref, snd d))) /\ in_block p (block_tell b1) (u_rest (b_unp b1)) ds' e
  end.
Proof.
  intros I P T R. destruct b as [bd bp br [ur ut]]. cbn [b_pos b_unp u_rest] in *. unfold block_tell in *. cbn [b_unp u_tell b_read] in *. unfold block_raw. cbn [b_unp b_data b_pos b_read]. subst ur p off.
  inversion I as [off' bs' O|off' bs' e' B|off' bs' o r E N NB|off' bs' x r E M|off' bs' x r ds' e' E M J]; subst.
  - destruct (u_over bs ut O) as [u ->]. exists (mkB bd bp br u). auto.
  - destruct (u_bad bs ut _ B) as [u ->]. exists (mkB bd bp br u). auto.
  - rewrite (u_value bs ut o r E N). exists (mkB bd bp br (mkU r (ut + (zlen bs - zlen r)))). split; [reflexivity|]. split; [reflexivity|]. right. split; [reflexivity|]. exists o. split; [reflexivity|]. intros ref. unfold document_of. rewrite not_bytes; [reflexivity|exact NB].
  - rewrite (u_value bs ut (MBin x) r E ltac:(discriminate)). exists (mkB bd bp br (mkU r (ut + (zlen bs - zlen r)))). split; [reflexivity|]. split; [reflexivity|]. right. split; [reflexivity|]. exists (MBin x). split; [reflexivity|]. intros ref. exact (magic_open x ref M).
  - rewrite (u_value bs ut (MBin x) r E ltac:(discriminate)). exists (mkB bd bp br (mkU r (ut + (zlen bs - zlen r)))). split; [reflexivity|]. split; [reflexivity|]. split; [reflexivity|]. split; [reflexivity|].
    split; [intros ref; exact (open_fresh x ref M)|]. cbn [b_unp u_rest u_tell b_read]. replace (ut + (zlen bs - zlen r) + br) with (ut + br + (zlen bs - zlen r)) by lia. exact J.
Qed.
Lemma block_iter_any p ds : forall off bs e b f, in_block p off bs ds e -> b_pos b = p -> block_tell b = off -> u_rest (b_unp b) = bs -> (length ds < f)%nat ->
  snd (block_iter f b) = all_answer e (map (fun d => (snd (fst d), fresh d)) ds).
Proof.
  induction ds as [|d ds IH]; intros off bs e b f I P T R L; (destruct f as [|f]; [lia|]); cbn [block_iter]; unfold block_next; destruct (block_step _ _ _ _ _ b I P T R) as (b1 & D & P1 & S).
  - destruct e as [|x]; [rewrite S; reflexivity|]. destruct S as [S|(-> & o & S & H)]; rewrite S; [reflexivity|]. rewrite H. reflexivity.
  - destruct S as (F & S & H & J). rewrite S, H. cbn [rbind]. specialize (IH _ _ _ b1 f J P1 eq_refl eq_refl ltac:(simpl in L; lia)). destruct (block_iter f b1) as [b2 x]. cbn [snd] in *. rewrite IH, T, P1.
    destruct d as [[p' off'] y]. cbn [fst snd] in *. injection F as -> ->. destruct e; reflexivity.
Qed.
Lemma in_block_short p off bs ds e : in_block p off bs ds e -> (length ds <= length bs)%nat.
Proof. induction 1; simpl; try lia. apply shorter in H. lia. Qed.
Lemma block_documents_any p y ds e b : in_block p 0 y ds e -> b_pos b = p -> b_data b = y -> snd (block_documents b) = all_answer e (map (fun d => (snd (fst d), fresh d)) ds).
Proof.
  intros I P D. unfold block_documents, block_seek, seek. change (0 <? 0) with false. cbv iota. change (Z.to_nat 0) with 0%nat. cbn [skipn]. unfold block_docs. rewrite D.
  eapply block_iter_any; [exact I|exact P|reflexivity|reflexivity|]. cbn. pose proof (in_block_short _ _ _ _ _ I). lia.
Qed.
Lemma block_get p y ds0 off bs ds e : in_block p off bs ds e -> forall b ref, In ref ds -> (exists pre, y = pre ++ bs /\ zlen pre = off) -> ds0 = ds -> b_data b = y -> b_pos b = p ->
  exists b1 b2, block_seek b (snd (fst ref)) = (b1, Ok tt) /\ block_next b1 = (b2, Ok (Some (fresh ref))) /\ b_data b2 = y /\ b_pos b2 = p.
Proof.
  intros I. revert ds0. induction I as [off bs O|off bs e B|off bs o r E N NB|off bs x r E M|off bs x r ds e E M J IH]; intros ds0 b ref R (pre & Y & L) _ D P; try contradiction.
  destruct R as [<-|R].
  - cbn [fst snd]. unfold block_seek. rewrite D, (seek_app y pre bs off Y (eq_sym L)). eexists; eexists. split; [reflexivity|]. unfold block_next, block_tell, block_raw, u_open. cbn [b_unp u_tell b_read b_data b_pos].
    rewrite (u_value bs 0 (MBin x) r E ltac:(discriminate)). rewrite (open_fresh x _ M). cbn [rbind]. subst p. auto.
  - apply (IH ds b ref R); auto. destruct (unpack_eats _ _ _ E) as [q ->]. exists (pre ++ q). rewrite <- app_assoc. split; [exact Y|]. rewrite !zlen_app. lia.
Qed.

(** ** the reader *)
Definition place (r : reader) : Z := u_tell (r_unp r) + r_read r.
Definition rest_of (r : reader) : list N := u_rest (r_unp r).
Lemma readblock_any r l e : blocks_of (r_codec r) (place r) (rest_of r) l e ->
  exists r1, r_file r1 = r_file r /\ r_codec r1 = r_codec r /\ r_block r1 = r_block r /\ r_last r1 = place r /\
  match l with
  | [] => readblock r = (r1, match e with Finished => Ok None | Raised x => Err x end)
  | (p, y) :: l' => p = place r /\ readblock r = (r1, Ok (Some (block_open p y))) /\ blocks_of (r_codec r) (place r1) (rest_of r1) l' e
  end.
Proof.
  destruct r as [rf rr [ur ut] rc rp rb rl]. unfold place, rest_of, readblock. cbn [r_file r_read r_unp r_codec r_per r_block r_last u_tell u_rest]. intros I.
  inversion I as [p' bs' O|p' bs' e' B|p' bs' o r E N NB|p' bs' x r e' E D|p' bs' x r y l' e' E D J]; subst.
  - destruct (u_over ur ut O) as [u ->]. exists (mkR rf rr u rc rp rb (ut + rr)). repeat split; reflexivity.
  - destruct (u_bad ur ut _ B) as [u ->]. exists (mkR rf rr u rc rp rb (ut + rr)). repeat split; reflexivity.
  - rewrite (u_value ur ut o r E N). exists (mkR rf rr (mkU r (ut + (zlen ur - zlen r))) rc rp rb (ut + rr)). repeat split; try reflexivity. cbn [rbind]. rewrite (not_bytes o TypeError NB). reflexivity.
  - rewrite (u_value ur ut (MBin x) r E ltac:(discriminate)). exists (mkR rf rr (mkU r (ut + (zlen ur - zlen r))) rc rp rb (ut + rr)). repeat split; try reflexivity. cbn [rbind as_bytes]. rewrite D. reflexivity.
  - rewrite (u_value ur ut (MBin x) r E ltac:(discriminate)). exists (mkR rf rr (mkU r (ut + (zlen ur - zlen r))) rc rp rb (ut + rr)). repeat split; try reflexivity; cbn [rbind as_bytes r_unp u_tell u_rest r_read].
    + rewrite D. reflexivity.
    + replace (ut + (zlen ur - zlen r) + rr) with (ut + rr + (zlen ur - zlen r)) by lia. exact J.
Qed.
(** what is left to read *)
Definition left (r : reader) (ds : list ((Z * Z) * list N)) (e : ending) : Prop :=
  exists l e0, blocks_of (r_codec r) (place r) (rest_of r) l e0 /\
  match r_block r with
  | None => docs_in l e0 ds e
  | Some b => r_last r = b_pos b /\ exists ds1 e1, in_block (b_pos b) (block_tell b) (u_rest (b_unp b)) ds1 e1 /\
      match e1 with Finished => exists ds2, docs_in l e0 ds2 e /\ ds = ds1 ++ ds2 | Raised x => ds = ds1 /\ e = Raised x end
  end.
Definition stepped (r1 : reader) (x : reader * res (option mdoc)) ds e : Prop :=
  match ds with [] => x = (r1, last_answer e) | d :: ds' => x = (r1, Ok (Some (fresh d))) /\ left r1 ds' e end.
Lemma next_block_any : forall l f r ds e e0, (length l < f)%nat -> blocks_of (r_codec r) (place r) (rest_of r) l e0 -> docs_in l e0 ds e -> exists r1, stepped r1 (next_block f r) ds e.
Proof.
  induction l as [|[p y] l IH]; intros f r ds e e0 L B D; (destruct f as [|f]; [lia|]); cbn [next_block]; destruct (readblock_any r _ _ B) as (r1 & F1 & C1 & K1 & L1 & S).
  - inversion D; subst. rewrite S. exists r1. unfold stepped, last_answer. destruct e; reflexivity.
  - destruct S as (Ep & S & B1). rewrite S.
    assert (Step : forall ds1 e1, in_block p 0 y ds1 e1 -> exists b1, b_data b1 = y /\ b_pos b1 = p /\
        match ds1 with
        | [] => match e1 with Finished => block_raw (block_open p y) = (b1, Ok None) | Raised x => block_raw (block_open p y) = (b1, Err x) \/ (x = ValueError /\ exists o, block_raw (block_open p y) = (b1, Ok (Some o)) /\ forall ref, document_of o ref = Err ValueError) end
        | d :: ds' => fst d = (p, 0) /\ block_raw (block_open p y) = (b1, Ok (Some (MBin (snd d)))) /\ (forall ref, document_of (MBin (snd d)) ref = Ok (fresh (ref, snd d))) /\ in_block p (block_tell b1) (u_rest (b_unp b1)) ds' e1
        end). { intros ds1 e1 I. exact (block_step p 0 y ds1 e1 (block_open p y) I eq_refl eq_refl eq_refl). }
    inversion D as [e'|p' y' l' e' ds1 ds2 e'' I J|p' y' l' e' ds1 x I]; subst; destruct (Step _ _ I) as (b1 & Db & Pb & S1); clear Step.
    + destruct ds1 as [|d ds1].
      * rewrite S1. cbn [app]. apply (IH f (set_block r1 None) ds2 e e0); [simpl in L; lia| |exact J]. cbn. rewrite C1. exact B1.
      * destruct S1 as (Fd & S1 & O1 & I1). rewrite S1. cbn [app]. exists (set_block r1 (Some b1)). split.
        -- rewrite O1. cbn [rbind]. rewrite L1. change (block_tell (block_open (place r) y)) with 0. rewrite <- Fd. rewrite <- surjective_pairing. reflexivity.
        -- exists l, e0. split; [cbn; rewrite C1; exact B1|]. cbn [set_block r_block r_last]. split; [rewrite L1, Pb; reflexivity|]. exists ds1, Finished. split; [rewrite Pb; exact I1|]. exists ds2. auto.
    + destruct ds as [|d ds].
      * destruct S1 as [S1|(-> & o & S1 & O1)]; rewrite S1; exists (set_block r1 (Some b1)); unfold stepped; [reflexivity|]. rewrite O1. reflexivity.
      * destruct S1 as (Fd & S1 & O1 & I1). rewrite S1. exists (set_block r1 (Some b1)). split.
        -- rewrite O1. cbn [rbind]. rewrite L1. change (block_tell (block_open (place r) y)) with 0. rewrite <- Fd. rewrite <- surjective_pairing. reflexivity.
        -- exists l, e0. split; [cbn; rewrite C1; exact B1|]. cbn [set_block r_block r_last]. split; [rewrite L1, Pb; reflexivity|]. exists ds, (Raised x). split; [rewrite Pb; exact I1|]. auto.
Qed.
Lemma blocks_short dec p bs l e : blocks_of dec p bs l e -> (length l <= length bs)%nat.
Proof. induction 1; simpl; try lia. apply shorter in H. lia. Qed.
Lemma reader_next_any r ds e : left r ds e -> exists r1, stepped r1 (reader_next r) ds e.
Proof.
  intros (l & e0 & B & K). unfold reader_next. destruct (r_block r) as [b|] eqn:Eb.
  - destruct K as (La & ds1 & e1 & I & K). destruct (block_step _ _ _ _ _ b I eq_refl eq_refl eq_refl) as (b1 & Db & Pb & S1). destruct ds1 as [|d ds1].
    + destruct e1 as [|x].
      * destruct K as (ds2 & J & ->). rewrite S1. cbn [app]. apply (next_block_any l _ (set_block r None) ds2 e e0); [|exact B|exact J].
        apply blocks_short in B. unfold rest_of in B. cbn. lia.
      * destruct K as [-> ->]. destruct S1 as [S1|(-> & o & S1 & O1)]; rewrite S1; exists (set_block r (Some b1)); unfold stepped; [reflexivity|]. rewrite O1. reflexivity.
    + destruct S1 as (Fd & S1 & O1 & I1). rewrite S1, O1. cbn [rbind]. exists (set_block r (Some b1)).
      assert (X : (set_block r (Some b1), Ok (Some (fresh ((r_last r, block_tell b), snd d)))) = (set_block r (Some b1), Ok (Some (fresh d)))) by (rewrite La, <- Fd, <- surjective_pairing; reflexivity).
      destruct e1 as [|x].
      * destruct K as (ds2 & J & ->). cbn [app stepped]. split; [exact X|]. exists l, e0. split; [exact B|]. cbn [set_block r_block r_last]. split; [rewrite La, Pb; reflexivity|]. exists ds1, Finished. rewrite Pb. eauto.
      * destruct K as [-> ->]. cbn [stepped]. split; [exact X|]. exists l, e0. split; [exact B|]. cbn [set_block r_block r_last]. split; [rewrite La, Pb; reflexivity|]. exists ds1, (Raised x). rewrite Pb. eauto.
  - apply (next_block_any l _ r ds e e0); [|exact B|exact K]. apply blocks_short in B. unfold rest_of in B. lia.
Qed.
Lemma nexts_any ds : forall r e, left r ds e -> rcalls r (repeat RNext (S (length ds))) = map (fun d => ADoc (Ok (Some (fresh d)))) ds ++ [ADoc (last_answer e)].
Proof.
  induction ds as [|d ds IH]; intros r e H; destruct (reader_next_any r _ _ H) as [r1 S]; cbn [stepped] in S; cbn [length repeat rcalls rstep map app].
  - rewrite S. reflexivity.
  - destruct S as [S H1]. rewrite S. cbn [rcalls]. f_equal. exact (IH r1 e H1).
Qed.
Lemma iter_any ds : forall r e f, left r ds e -> (length ds < f)%nat -> snd (reader_iter f r) = all_answer e (map fresh ds).
Proof.
  induction ds as [|d ds IH]; intros r e f H L; (destruct f as [|f]; [lia|]); destruct (reader_next_any r _ _ H) as [r1 S]; cbn [stepped] in S; cbn [reader_iter].
  - rewrite S. destruct e; reflexivity.
  - destruct S as [S H1]. rewrite S. specialize (IH r1 e f H1 ltac:(simpl in L; lia)). destruct (reader_iter f r1) as [r2 x]. cbn [snd] in *. rewrite IH. destruct e; reflexivity.
Qed.
Lemma docs_any ds : forall h r e f, left r ds e -> (length ds < f)%nat -> let '(h1, _, x) := docreader_iter f h r in (h1, x) = make_docs h ds e.
Proof.
  induction ds as [|d ds IH]; intros h r e f H L; (destruct f as [|f]; [lia|]); destruct (reader_next_any r _ _ H) as [r1 S]; cbn [stepped] in S; cbn [docreader_iter make_docs]; unfold docreader_next.
  - rewrite S. destruct e; reflexivity.
  - destruct S as [S H1]. rewrite S. destruct (md_document h (fresh d) []) as [m [h1 [y|x]]]; cbn [fst snd rmap]; [|destruct x; reflexivity].
    specialize (IH h1 r1 e f H1 ltac:(simpl in L; lia)). destruct (docreader_iter f h1 r1) as [[h2 r2] q]. rewrite <- IH. destruct q; reflexivity.
Qed.
Lemma blocks_any l : forall r e f, blocks_of (r_codec r) (place r) (rest_of r) l e -> (length l < f)%nat -> snd (blocks_iter f r) = all_answer e (map (fun py => block_open (fst py) (snd py)) l).
Proof.
  induction l as [|[p y] l IH]; intros r e f B L; (destruct f as [|f]; [lia|]); cbn [blocks_iter]; destruct (readblock_any r _ _ B) as (r1 & F1 & C1 & K1 & L1 & S).
  - rewrite S. destruct e; reflexivity.
  - destruct S as (Ep & S & B1). rewrite S. specialize (IH r1 e f). rewrite C1 in IH. specialize (IH B1 ltac:(simpl in L; lia)). destruct (blocks_iter f r1) as [r2 x]. cbn [snd] in *. rewrite IH. destruct e; reflexivity.
Qed.

(** ** opening *)
Lemma open_any g f r : reader_open g f = Ok r -> exists p body, opened g f (r_codec r) p body /\ r_file r = f /\ place r = p /\ rest_of r = body /\ r_block r = None /\ 0 <= p /\ body = skipn (Z.to_nat p) f.
Proof.
  unfold reader_open. change (list_eqb N.eqb (firstn 4 f) dmf1) with (str_eqb (firstn 4 f) dmf1). destruct (str_eqb_spec (firstn 4 f) dmf1) as [H4|]; [|discriminate]. cbn [negb].
  unfold u_open, u_next1. cbn [u_rest u_tell]. destruct (unpack1 (skipn 4 f)) as [[o f2]|] eqn:E1; [|discriminate]. cbn [rbind].
  destruct o; cbn [codec_of rbind]; try discriminate. unfold get_codec. cbn [negb andb]. destruct (dmem g x) eqn:Dm; [|discriminate]. cbn [negb rbind]. destruct (dget g x) as [c|] eqn:Dg; [|discriminate].
  cbn [u_rest u_tell]. destruct (unpack1 f2) as [[per f3]|] eqn:E2; [|discriminate]. cbn [rbind u_rest u_tell]. destruct (unpack1 f3) as [[flag body]|] eqn:E3; [|discriminate]. cbn [rbind].
  destruct (truth flag) eqn:Tf; [discriminate|]. intros R. apply Ok_inj in R. subst r. cbn [r_codec r_file r_block]. unfold place, rest_of. cbn [r_unp u_tell u_rest r_read].
  assert (Lf : zlen f = 4 + zlen (skipn 4 f)). { rewrite <- (firstn_skipn 4 f) at 1. rewrite zlen_app, H4. reflexivity. }
  destruct (unpack_eats _ _ _ E1) as [q1 Q1]. destruct (unpack_eats _ _ _ E2) as [q2 Q2]. destruct (unpack_eats _ _ _ E3) as [q3 Q3].
  exists (zlen f - zlen body), body. split; [|split; [reflexivity|]].
  - exists x, c, per, flag, (skipn 4 f), f2, f3. repeat split; try assumption; reflexivity.
  - split; [lia|]. split; [reflexivity|]. split; [reflexivity|].
    assert (Sp : f = (firstn 4 f ++ q1 ++ q2 ++ q3) ++ body) by (rewrite <- !app_assoc, <- Q3, <- Q2, <- Q1, firstn_skipn; reflexivity).
    assert (Lz : zlen f - zlen body = zlen (firstn 4 f ++ q1 ++ q2 ++ q3)) by (rewrite Sp at 1; rewrite (zlen_app _ body); lia).
    split; [rewrite Lz; apply zlen_nonneg|]. rewrite Lz. unfold zlen. rewrite Nat2Z.id. rewrite Sp at 2. rewrite skipn_app, skipn_all, Nat.sub_diag. reflexivity.
Qed.
Lemma opened_open g f dec p body : opened g f dec p body -> exists r, reader_open g f = Ok r.
Proof.
  intros (name & c & per & flag & f1 & f2 & f3 & H4 & -> & E1 & Dg & _ & E2 & E3 & Tf & _). unfold reader_open. rewrite H4. change (negb (list_eqb N.eqb (s "Dmf1") dmf1)) with false. cbv iota.
  unfold u_open, u_next1. cbn [u_rest u_tell]. rewrite E1. cbn [rbind codec_of]. unfold get_codec. assert (dmem g name = true) as -> by (apply dmem_In, (dget_In _ _ Dg) || (unfold dmem; rewrite Dg; reflexivity)).
  cbn [negb andb rbind]. rewrite Dg. cbn [u_rest u_tell]. rewrite E2. cbn [rbind u_rest u_tell]. rewrite E3. cbn [rbind]. rewrite Tf. eexists. reflexivity.
Qed.
Lemma open_refuses g f o r : firstn 4 f = dmf1 -> unpack1 (skipn 4 f) = Ok (o, r) -> (forall x, o <> MStr x) -> reader_open g f = Err (match o with MArr _ | MMap _ => TypeError | _ => NotImplementedError end).
Proof.
  intros H4 E N. unfold reader_open. rewrite H4. change (negb (list_eqb N.eqb dmf1 dmf1)) with false. cbv iota. unfold u_open, u_next1. cbn [u_rest u_tell]. rewrite E. cbn [rbind].
  destruct o; cbn [codec_of rbind]; try reflexivity. destruct (N x). reflexivity.
Qed.
Lemma opened_same g f dec p body p' body' : opened g f dec p body -> opened g f dec p' body' -> p = p' /\ body = body'.
Proof.
  intros (n & c & per & fl & f1 & f2 & f3 & A1 & A2 & A3 & A4 & A5 & A6 & A7 & A8 & A9) (n' & c' & per' & fl' & f1' & f2' & f3' & A1' & A2' & A3' & A4' & A5' & A6' & A7' & A8' & A9').
  assert (f2' = f2) by congruence. assert (f3' = f3) by congruence. assert (body' = body) by congruence. subst. auto.
Qed.
Lemma open_left g f r l e0 ds e p body : reader_open g f = Ok r -> opened g f (r_codec r) p body -> blocks_of (r_codec r) p body l e0 -> docs_in l e0 ds e -> left r ds e.
Proof.
  intros O P B D. destruct (open_any g f r O) as (p' & body' & P' & F & Ep & Eb & K & _ & _).
  assert (p' = p /\ body' = body) as [-> ->] by exact (opened_same _ _ _ _ _ _ _ P' P).
  exists l, e0. rewrite Ep, Eb, K. auto.
Qed.

(** ** get, after any calls *)
Definition held (f : list N) (dec : list N -> res (list N)) (p : Z) (y : list N) : Prop := 0 <= p /\ exists x r, unpack1 (skipn (Z.to_nat p) f) = Ok (MBin x, r) /\ dec x = Ok y.
Record good (f : list N) (dec : list N -> res (list N)) (r : reader) : Prop := mkGood {
  gd_file : r_file r = f; gd_codec : r_codec r = dec; gd_place : 0 <= place r; gd_rest : rest_of r = skipn (Z.to_nat (place r)) f;
  gd_block : forall b, r_block r = Some b -> held f dec (b_pos b) (b_data b) }.
Lemma held_same f dec p y y' : held f dec p y -> held f dec p y' -> y = y'.
Proof. intros (_ & x & r & E & D) (_ & x' & r' & E' & D'). congruence. Qed.
Lemma skip_skip {A} n : forall m (l : list A), skipn m (skipn n l) = skipn (n + m) l.
Proof. induction n as [|n IH]; intros m l; [reflexivity|]. destruct l; [destruct m; reflexivity|]. cbn [skipn Nat.add]. apply IH. Qed.
Lemma skip_past (f bs r q : list N) p : 0 <= p -> bs = skipn (Z.to_nat p) f -> bs = q ++ r -> r = skipn (Z.to_nat (p + (zlen bs - zlen r))) f.
Proof.
  intros P E Q. replace (zlen bs - zlen r) with (zlen q) by (rewrite Q, zlen_app; lia). rewrite Z2Nat.inj_add by (try apply zlen_nonneg; lia). unfold zlen. rewrite Nat2Z.id, <- skip_skip, <- E, Q.
  rewrite skipn_app, skipn_all, Nat.sub_diag. reflexivity.
Qed.
Lemma good_set f dec r ob : good f dec r -> (forall b, ob = Some b -> held f dec (b_pos b) (b_data b)) -> good f dec (set_block r ob).
Proof. intros [A B C D E] H. constructor; assumption. Qed.
Lemma good_readblock f dec r r1 x : good f dec r -> readblock r = (r1, x) -> good f dec r1 /\ r_block r1 = r_block r /\ forall b, x = Ok (Some b) -> b_pos b = place r /\ held f dec (b_pos b) (b_data b).
Proof.
  intros [Fi Co Pl Re Bl] H. unfold readblock, u_next, u_next1 in H. fold (rest_of r) in H. fold (place r) in H. destruct (unpack1 (rest_of r)) as [[o q]|e] eqn:E.
  - assert (Y : match o with MNil => (mkU q (u_tell (r_unp r) + (zlen (rest_of r) - zlen q)), Ok None) | o => (mkU q (u_tell (r_unp r) + (zlen (rest_of r) - zlen q)), Ok (Some o)) end
                = (mkU q (u_tell (r_unp r) + (zlen (rest_of r) - zlen q)), @Ok (option mobj) (match o with MNil => None | o => Some o end))) by (destruct o; reflexivity).
    rewrite Y in H. clear Y. injection H as <- <-. cbn [r_block]. destruct (unpack_eats _ _ _ E) as [z Z]. pose proof (shorter _ _ _ E) as Sh.
    split; [|split; [reflexivity|]].
    + constructor; try assumption; unfold place, rest_of in *; cbn [r_unp r_read u_tell u_rest] in *.
      * unfold zlen. lia.
      * pose proof (skip_past f _ q z _ Pl Re Z) as K. replace (u_tell (r_unp r) + (zlen (u_rest (r_unp r)) - zlen q) + r_read r) with (u_tell (r_unp r) + r_read r + (zlen (u_rest (r_unp r)) - zlen q)) by lia. exact K.
    + intros b Hb. destruct o; cbn [rbind as_bytes] in Hb; try discriminate. destruct (r_codec r x) as [y|] eqn:D; [|discriminate]. cbn [rbind] in Hb. injection Hb as <-. cbn [b_pos b_data]. split; [reflexivity|].
      split; [exact Pl|]. exists x, q. cbn [block_open b_pos b_data]. rewrite <- Co. split; [rewrite <- E, Re; reflexivity|exact D].
  - assert (Y : exists z : res (option mobj), match e with StopIteration => (r_unp r, Ok None) | _ => (r_unp r, Err e) end = (r_unp r, z) /\ forall o, z <> Ok (Some o)) by (destruct e; (eexists; split; [reflexivity|discriminate])).
    destruct Y as (z & Y & NZ). rewrite Y in H. injection H as <- <-. cbn [r_block]. split; [constructor; assumption|]. split; [reflexivity|]. intros b Hb. destruct z as [[o|]|]; try discriminate. destruct (NZ o). reflexivity.
Qed.
Lemma good_seek f dec r p r1 x : good f dec r -> reader_seek r p = (r1, x) -> good f dec r1 /\ r_block r1 = None /\ (0 <= p -> x = Ok tt /\ place r1 = p).
Proof.
  intros [Fi Co Pl Re Bl] H. unfold reader_seek, seek in H. destruct (Z.ltb_spec p 0) as [L|L]; injection H as <- <-.
  - split; [constructor; try assumption; discriminate|]. split; [reflexivity|]. lia.
  - split; [|split; [reflexivity|intros _; split; [reflexivity|unfold place; cbn; lia]]]. constructor; try assumption; try discriminate; unfold place, rest_of; cbn [r_unp r_read u_open u_tell u_rest]. rewrite Fi. reflexivity.
Qed.
Lemma raw_keeps b b1 x : block_raw b = (b1, x) -> b_data b1 = b_data b /\ b_pos b1 = b_pos b.
Proof. unfold block_raw. destruct (u_next (b_unp b)) as [u y]. intros H. injection H as <- <-. auto. Qed.
Lemma next_keeps b b1 x : block_next b = (b1, x) -> b_data b1 = b_data b /\ b_pos b1 = b_pos b.
Proof. unfold block_next. destruct (block_raw b) as [b2 [[o|]|]] eqn:E; intros H; injection H as <- <-; exact (raw_keeps _ _ _ E). Qed.
Lemma seek_keeps b p b1 x : block_seek b p = (b1, x) -> b_data b1 = b_data b /\ b_pos b1 = b_pos b.
Proof. unfold block_seek. destruct (seek (b_data b) p); intros H; injection H as <- <-; auto. Qed.
Lemma good_next_block f dec : forall k r r1 x, good f dec r -> next_block k r = (r1, x) -> good f dec r1.
Proof.
  induction k as [|k IH]; intros r r1 x G H; cbn [next_block] in H; [injection H as <- <-; exact G|].
  destruct (readblock r) as [r2 [[b|]|e]] eqn:E; destruct (good_readblock _ _ _ _ _ G E) as (G2 & K2 & Hb); try (injection H as <- <-; exact G2).
  destruct (Hb b eq_refl) as [_ Hd]. destruct (block_raw b) as [b1 [[o|]|e]] eqn:E1; destruct (raw_keeps _ _ _ E1) as [D1 P1].
  - injection H as <- <-. apply good_set; [exact G2|]. intros b' Eb. injection Eb as <-. rewrite D1, P1. exact Hd.
  - apply (IH (set_block r2 None) r1 x); [apply good_set; [exact G2|discriminate]|exact H].
  - injection H as <- <-. apply good_set; [exact G2|]. intros b' Eb. injection Eb as <-. rewrite D1, P1. exact Hd.
Qed.
Lemma good_next f dec r r1 x : good f dec r -> reader_next r = (r1, x) -> good f dec r1.
Proof.
  intros G H. unfold reader_next in H. destruct (r_block r) as [b|] eqn:Eb; [|exact (good_next_block f dec _ r r1 x G H)].
  pose proof (gd_block _ _ _ G b Eb) as Hd. destruct (block_raw b) as [b1 [[o|]|e]] eqn:E1; destruct (raw_keeps _ _ _ E1) as [D1 P1].
  - injection H as <- <-. apply good_set; [exact G|]. intros b' E'. injection E' as <-. rewrite D1, P1. exact Hd.
  - eapply (good_next_block f dec _ (set_block r None) r1 x); [apply good_set; [exact G|discriminate]|exact H].
  - injection H as <- <-. apply good_set; [exact G|]. intros b' E'. injection E' as <-. rewrite D1, P1. exact Hd.
Qed.
Definition finish (ref : Z * Z) (r1 : reader) (b : block) : reader * res mdoc :=
  match block_seek b (snd ref) with
  | (b1, Err e) => (set_block r1 (Some b1), Err e)
  | (b1, Ok _) => let (b2, x) := block_next b1 in (set_block r1 (Some b2), let* d := x in match d with Some d => Ok d | None => Err StopIteration end)
  end.
Lemma good_finish f dec ref r b r1 x : good f dec r -> held f dec (b_pos b) (b_data b) -> finish ref r b = (r1, x) -> good f dec r1.
Proof.
  intros G Hd H. unfold finish in H. destruct (block_seek b (snd ref)) as [b1 [u|e]] eqn:E; destruct (seek_keeps _ _ _ _ E) as [D1 P1].
  - destruct (block_next b1) as [b2 y] eqn:E2. destruct (next_keeps _ _ _ E2) as [D2 P2]. injection H as <- <-. apply good_set; [exact G|]. intros b' E'. injection E' as <-. rewrite D2, P2, D1, P1. exact Hd.
  - injection H as <- <-. apply good_set; [exact G|]. intros b' E'. injection E' as <-. rewrite D1, P1. exact Hd.
Qed.
Definition fetch (ref : Z * Z) (r : reader) : reader * res mdoc :=
  match reader_seek r (fst ref) with
  | (r1, Err e) => (r1, Err e)
  | (r1, Ok _) => match readblock r1 with
                  | (r2, Err e) => (r2, Err e)
                  | (r2, Ok None) => (set_block r2 None, Err AttributeError)
                  | (r2, Ok (Some b)) => finish ref (set_block r2 (Some b)) b
                  end
  end.
Lemma get_cases r ref : reader_get r ref = match r_block r with Some b => if b_pos b =? fst ref then finish ref r b else fetch ref r | None => fetch ref r end.
Proof. reflexivity. Qed.
Lemma good_fetch f dec ref r r1 x : good f dec r -> fetch ref r = (r1, x) -> good f dec r1.
Proof.
  intros G H. unfold fetch in H. destruct (reader_seek r (fst ref)) as [r2 [u|e]] eqn:E; destruct (good_seek _ _ _ _ _ _ G E) as (G2 & K2 & _); [|injection H as <- <-; exact G2].
  destruct (readblock r2) as [r3 [[b|]|e]] eqn:E3; destruct (good_readblock _ _ _ _ _ G2 E3) as (G3 & K3 & Hb).
  - destruct (Hb b eq_refl) as [_ Hd]. apply (good_finish f dec ref (set_block r3 (Some b)) b r1 x); [|exact Hd|exact H]. apply good_set; [exact G3|]. intros b' E'. injection E' as <-. exact Hd.
  - injection H as <- <-. apply good_set; [exact G3|discriminate].
  - injection H as <- <-. exact G3.
Qed.
Lemma good_get f dec r ref r1 x : good f dec r -> reader_get r ref = (r1, x) -> good f dec r1.
Proof.
  intros G H. rewrite get_cases in H. destruct (r_block r) as [b|] eqn:Eb; [|exact (good_fetch _ _ _ _ _ _ G H)]. destruct (b_pos b =? fst ref); [|exact (good_fetch _ _ _ _ _ _ G H)].
  exact (good_finish _ _ _ _ _ _ _ G (gd_block _ _ _ G b Eb) H).
Qed.
Lemma good_step f dec r c : good f dec r -> good f dec (fst (rstep r c)).
Proof.
  intros G. destruct c; cbn [rstep].
  - destruct (reader_next r) as [r1 x] eqn:E. exact (good_next _ _ _ _ _ G E).
  - destruct (reader_get r ref) as [r1 x] eqn:E. exact (good_get _ _ _ _ _ _ G E).
  - destruct (reader_seek r position) as [r1 x] eqn:E. exact (proj1 (good_seek _ _ _ _ _ _ G E)).
  - destruct (readblock r) as [r1 x] eqn:E. exact (proj1 (good_readblock _ _ _ _ _ G E)).
Qed.
(** ** where the documents are *)
Lemma blocks_held f dec : forall p bs l e, blocks_of dec p bs l e -> 0 <= p -> bs = skipn (Z.to_nat p) f -> forall q y, In (q, y) l -> held f dec q y.
Proof.
  induction 1 as [p bs O|p bs e B|p bs o r E N NB|p bs x r e E D|p bs x r y l e E D I IH]; intros P S q z Q; try contradiction. destruct Q as [Q|Q].
  - injection Q as <- <-. split; [exact P|]. exists x, r. rewrite <- S. auto.
  - destruct (unpack_eats _ _ _ E) as [w W]. pose proof (shorter _ _ _ E). apply IH; [unfold zlen; lia|exact (skip_past f bs r w p P S W)|exact Q].
Qed.
Lemma docs_where l e ds e' : docs_in l e ds e' -> forall d, In d ds -> exists p y dsb eb, In (p, y) l /\ in_block p 0 y dsb eb /\ In d dsb.
Proof.
  induction 1 as [e|p y l e ds ds' e' I J IH|p y l e ds x I]; intros d D; [contradiction| |].
  - apply in_app_or in D. destruct D as [D|D]; [exists p, y, ds, Finished; simpl; auto|]. destruct (IH d D) as (p' & y' & dsb & eb & Q & R & S). exists p', y', dsb, eb. simpl. auto.
  - exists p, y, ds, (Raised x). simpl. auto.
Qed.
Lemma in_block_place p off bs ds e d : in_block p off bs ds e -> In d ds -> fst (fst d) = p.
Proof. induction 1 as [| | | |off bs x r ds e E M J IH]; intros D; try contradiction. destruct D as [<-|D]; [reflexivity|auto]. Qed.
Lemma finish_held f dec p y dsb eb d r b : held f dec p y -> in_block p 0 y dsb eb -> In d dsb -> b_pos b = p -> b_data b = y -> exists r1, finish (fst d) r b = (r1, Ok (fresh d)).
Proof.
  intros Hd I D P Y. unfold finish. destruct (block_get p y dsb 0 y dsb eb I b d D (ex_intro _ [] (conj eq_refl eq_refl)) eq_refl Y P) as (b1 & b2 & S & Nx & _). rewrite S, Nx. eexists. reflexivity.
Qed.
Lemma get_any f dec r p y dsb eb d : good f dec r -> held f dec p y -> in_block p 0 y dsb eb -> In d dsb -> exists r1, reader_get r (fst d) = (r1, Ok (fresh d)).
Proof.
  intros G Hd I D. pose proof (in_block_place _ _ _ _ _ _ I D) as Ep. rewrite get_cases.
  assert (Ft : exists r1, fetch (fst d) r = (r1, Ok (fresh d))).
  { unfold fetch. rewrite Ep. destruct (reader_seek r p) as [r2 x] eqn:E. destruct (good_seek _ _ _ _ _ _ G E) as (G2 & K2 & Hp). destruct (Hp (proj1 Hd)) as [-> Pl].
    destruct Hd as (P0 & x & q & E1 & D1). destruct (readblock r2) as [r3 z] eqn:E3. pose proof (good_readblock _ _ _ _ _ G2 E3) as (_ & _ & Hb).
    unfold readblock in E3. destruct r2 as [rf rr [ur ut] rc rp rb rl]. unfold place in Pl. cbn [r_unp r_read u_tell] in Pl. pose proof (gd_rest _ _ _ G2) as Re. unfold rest_of, place in Re. cbn [r_unp u_rest u_tell r_read] in Re. rewrite Pl in Re.
    cbn [r_unp r_read u_tell r_codec r_per r_block r_file] in E3. rewrite (u_value ur ut (MBin x) q) in E3 by (discriminate || (rewrite Re; exact E1)). cbn [rbind as_bytes] in E3.
    pose proof (gd_codec _ _ _ G2) as Co. cbn [r_codec] in Co. rewrite Co, D1 in E3. cbn [rbind] in E3. injection E3 as <- <-. rewrite Pl in *. 
    eapply finish_held; [exact (conj P0 (ex_intro _ x (ex_intro _ q (conj E1 D1))))|exact I|exact D|reflexivity|reflexivity]. }
  destruct (r_block r) as [b|] eqn:Eb; [|exact Ft]. destruct (Z.eqb_spec (b_pos b) (fst (fst d))) as [e|]; [|exact Ft].
  pose proof (gd_block _ _ _ G b Eb) as Hb. rewrite e, Ep in Hb. apply (finish_held f dec p y dsb eb d r b Hd I D); [congruence|exact (held_same _ _ _ _ _ Hb Hd)].
Qed.
(** after any calls, get with the reference of a document gives that document *)
Fixpoint after (r : reader) (cs : list rcall) : reader := match cs with [] => r | c :: cs => after (fst (rstep r c)) cs end.
Lemma rcalls_app a : forall r b, rcalls r (a ++ b) = rcalls r a ++ rcalls (after r a) b.
Proof. induction a as [|c a IH]; intros r b; [reflexivity|]. cbn [app rcalls after]. destruct (rstep r c) as [r1 x]. cbn [fst app]. rewrite IH. reflexivity. Qed.
Lemma good_after f dec cs : forall r, good f dec r -> good f dec (after r cs).
Proof. induction cs as [|c cs IH]; intros r G; [exact G|]. apply IH, good_step, G. Qed.
Lemma get_after g f r p body l e0 ds e cs d : reader_open g f = Ok r -> opened g f (r_codec r) p body -> blocks_of (r_codec r) p body l e0 -> docs_in l e0 ds e -> In d ds ->
  rcalls r (cs ++ [RGet (fst d)]) = rcalls r cs ++ [ADoc (Ok (Some (fresh d)))].
Proof.
  intros O P B D I. pose proof (open_left g f r l e0 ds e p body O P B D) as (l' & e' & _). destruct (open_any g f r O) as (p' & body' & P' & Fi & Ep & Eb & K & P0 & Sk).
  assert (p' = p /\ body' = body) as [-> ->] by exact (opened_same _ _ _ _ _ _ _ P' P).
  assert (G : good f (r_codec r) r). { constructor; try assumption; try reflexivity; [lia|rewrite Ep, Eb; exact Sk|rewrite K; discriminate]. }
  destruct (docs_where _ _ _ _ D d I) as (q & y & dsb & eb & Q & Ib & Id). pose proof (blocks_held f _ p body l e0 B P0 Sk q y Q) as Hd.
  destruct (get_any f _ (after r cs) q y dsb eb d (good_after _ _ cs r G) Hd Ib Id) as [r1 E]. rewrite rcalls_app. f_equal. cbn [rcalls rstep]. rewrite E. reflexivity.
Qed.
