(** Proofs about the Java dominant right sweep. *)
From Verif Require Import PyBase PyBaseFacts Model_Heap Model_Layer Model_Text Model_Algorithm Model_JAlgorithm Spec_Algorithm Spec_JAlgorithm Proof_Algorithm.
From Coq Require Import Sorting.Sorted Sorting.Permutation.
Local Open Scope Z_scope.

(** sorting commutes with a map that keeps keys *)
Lemma sinsert_map {A B K} (ka : A -> K) (kb : B -> K) leb (f : A -> B) (H : forall a, kb (f a) = ka a) x l :
  sinsert kb leb (f x) (map f l) = map f (sinsert ka leb x l).
Proof. induction l as [|y l IH]; [reflexivity|]. simpl. rewrite !H. destruct (leb _ _); [reflexivity|]. simpl. rewrite IH. reflexivity. Qed.
Lemma ssort_map {A B K} (ka : A -> K) (kb : B -> K) leb (f : A -> B) (H : forall a, kb (f a) = ka a) l :
  ssort kb leb (map f l) = map f (ssort ka leb l).
Proof. induction l as [|y l IH]; [reflexivity|]. simpl. rewrite IH. apply sinsert_map. exact H. Qed.

Section J.
Context {A : Type}.
Notation point := ((Z * bool) * (nat * seg A))%type.
Definition as_ev (p : point) : ev := (point_key p, snd p).
Lemma points_events (l : list (seg A)) : forall i, map as_ev (dr_points i l) = dr_events i l.
Proof.
  induction l as [|x r IH]; intros i; [reflexivity|]. simpl. destruct (negb _); simpl; rewrite IH; reflexivity.
Qed.
(** the sweeps with places *)
Fixpoint jloop (open : option (nat * seg A)) (es : list ev) : list (nat * seg A) :=
  match es with
  | [] => []
  | ((_, mode), (i, x)) :: r =>
      match open with
      | Some (o, y) =>
          if mode =? 0 then (if sg_length y <=? sg_length x then jloop (Some (i, x)) r else jloop open r)
          else if Nat.eqb o i then (i, x) :: jloop None r else jloop open r
      | None => jloop (Some (i, x)) r
      end
  end.
Fixpoint ploop (open : option (nat * seg A)) (es : list ev) : list (nat * seg A) :=
  match es with
  | [] => []
  | ((_, mode), (i, x)) :: r =>
      if mode =? 0 then
        match open with
        | Some (o, y) => if sg_length y <=? sg_length x then ploop (Some (i, x)) r else ploop open r
        | None => ploop (Some (i, x)) r
        end
      else
        match open with
        | Some (o, y) => if Nat.eqb o i then (i, x) :: ploop None r else ploop open r
        | None => ploop open r
        end
  end.
Lemma jloop_items ps : forall open, resolve_loop open ps = map (fun p => sg_item (snd p)) (jloop open (map as_ev ps)).
Proof.
  induction ps as [|[[q b] [i x]] ps IH]; intros open; [reflexivity|]. simpl.
  destruct open as [[o y]|]; [|apply IH]. destruct b; simpl.
  - destruct (_ <=? _); apply IH.
  - destruct (Nat.eqb o i); simpl; rewrite IH; reflexivity.
Qed.
Lemma ploop_items es : forall open, dr_loop open es = map (fun p => sg_item (snd p)) (ploop open es).
Proof.
  induction es as [|[[q m] [i x]] es IH]; intros open; [reflexivity|]. simpl. unfold sg_length.
  destruct (m =? 0); destruct open as [[o y]|]; try apply IH.
  - destruct (_ <=? _); apply IH.
  - destruct (Nat.eqb o i); simpl; rewrite IH; reflexivity.
Qed.

Variable segs : list (seg A).
Hypothesis proper : forall x, In x segs -> sg_start x <= sg_stop x.
Notation has i x := (nth_error segs i = Some x).
Notation L := (Proof_Algorithm.L segs).
Definition lj := jloop None L.
Definition lp := ploop None L.
Lemma java_items : java_resolve segs = map (fun p => sg_item (snd p)) lj.
Proof.
  unfold java_resolve, lj. rewrite jloop_items. unfold Proof_Algorithm.L. rewrite <- points_events.
  rewrite (ssort_map point_key fst lex_leb as_ev) by reflexivity. reflexivity.
Qed.
Lemma python_items : dominant_right segs = map (fun p => sg_item (snd p)) lp.
Proof. apply ploop_items. Qed.

Lemma jloop_at_start open i x r : jloop open (start_ev i x :: r) =
  match open with Some (o, y) => if sg_length y <=? sg_length x then jloop (Some (i, x)) r else jloop open r | None => jloop (Some (i, x)) r end.
Proof. reflexivity. Qed.
Lemma jloop_at_stop open i x r : jloop open (stop_ev i x :: r) =
  match open with Some (o, y) => if Nat.eqb o i then (i, x) :: jloop None r else jloop open r | None => jloop (Some (i, x)) r end.
Proof. reflexivity. Qed.
Lemma ploop_at_start open i x r : ploop open (start_ev i x :: r) =
  match open with Some (o, y) => if sg_length y <=? sg_length x then ploop (Some (i, x)) r else ploop open r | None => ploop (Some (i, x)) r end.
Proof. reflexivity. Qed.
Lemma ploop_at_stop open i x r : ploop open (stop_ev i x :: r) =
  match open with Some (o, y) => if Nat.eqb o i then (i, x) :: ploop None r else ploop open r | None => ploop open r end.
Proof. reflexivity. Qed.
Lemma L_ev e : In e L -> exists i x, has i x /\ (e = start_ev i x \/ e = stop_ev i x).
Proof. apply L_in. Qed.
(** what the Python sweep returns later has its stop later *)
Lemma ploop_stop todo : forall open i x, (forall e, In e todo -> In e L) -> In (i, x) (ploop open todo) -> has i x /\ In (stop_ev i x) todo.
Proof.
  induction todo as [|e todo IH]; intros open i x V I; [destruct I|].
  assert (G : forall op, In (i, x) (ploop op todo) -> has i x /\ In (stop_ev i x) (e :: todo)).
  { intros op J. destruct (IH op i x) as (H1 & H2); [intros; apply V; right; assumption|exact J|]. split; [exact H1|right; exact H2]. }
  destruct (L_ev e) as (k & y & Hk & E); [apply V; left; reflexivity|].
  destruct E as [-> | ->]; unfold start_ev, stop_ev in I; cbn [ploop] in I.
  - change (0 =? 0) with true in I. cbv iota in I. destruct open as [[o z]|]; [destruct (_ <=? _)|]; exact (G _ I).
  - change (1 =? 0) with false in I. cbv iota in I. destruct open as [[o z]|]; [destruct (Nat.eqb o k)|]; try exact (G _ I).
    destruct I as [E|I]; [|exact (G _ I)]. injection E as <- <-. split; [exact Hk|left; reflexivity].
Qed.

Definition excused (j : nat) (y : seg A) : Prop :=
  exists i x, has i x /\ ~ In (i, x) lp /\ last_of x < sg_start y /\ sg_length y < sg_length x.
(** the open segment of Java against that of Python *)
Definition agree (done : list ev) (jo po : option (nat * seg A)) : Prop :=
  jo = po \/
  exists i x, jo = Some (i, x) /\ has i x /\ ~ In (i, x) lp /\ In (stop_ev i x) done /\
    (po = None \/ exists o y, po = Some (o, y) /\ has o y /\ sg_length y < sg_length x /\ last_of x < sg_start y).
Lemma excused_stays done e jo po : agree done jo po -> agree (done ++ [e]) jo po.
Proof.
  intros [E|(i & x & H1 & H2 & H3 & H4 & H5)]; [left; exact E|]. right. exists i, x.
  split; [exact H1|]. split; [exact H2|]. split; [exact H3|]. split; [apply in_or_app; auto|exact H5].
Qed.

Lemma sweep_sub todo : forall done acc jo po, L = done ++ todo -> lp = acc ++ ploop po todo ->
  (forall i x, In (i, x) acc -> In (stop_ev i x) done) ->
  (forall i x, po = Some (i, x) -> has i x /\ In (stop_ev i x) todo) -> agree done jo po ->
  subseq (jloop jo todo) (ploop po todo) /\
  (forall j y, In (j, y) (ploop po todo) -> In (j, y) (jloop jo todo) \/ excused j y).
Proof.
  induction todo as [|e todo IH]; intros done acc jo po EL EP Ha Ho Ag.
  { split; [constructor|]. intros j y []. }
  destruct (sorted_split segs _ _ _ EL) as (Bef & Aft).
  assert (EL' : L = (done ++ [e]) ++ todo) by (rewrite <- app_assoc; exact EL).
  assert (Vt : forall e', In e' todo -> In e' L) by (intros e' I; rewrite EL; apply in_or_app; right; right; exact I).
  assert (Ha' : forall i x, In (i, x) acc -> In (stop_ev i x) (done ++ [e])) by (intros; apply in_or_app; auto).
  assert (Ie : In e L) by (rewrite EL; apply in_or_app; right; left; reflexivity).
  apply L_ev in Ie. destruct Ie as (i & x & Hi & Ee).
  destruct Ee as [->| ->].
  - assert (Sto : In (stop_ev i x) todo).
    { pose proof (stop_in segs i x Hi) as J. rewrite EL in J. apply in_app_or in J. destruct J as [J|[J|J]]; [|discriminate J|exact J].
      exfalso. apply Bef in J. pose proof (start_stop segs proper i x Hi) as J2. unfold T in *. lia. }
    assert (Ho' : forall i0 x0, po = Some (i0, x0) -> has i0 x0 /\ In (stop_ev i0 x0) todo).
    { intros i0 x0 E. destruct (Ho i0 x0 E) as (O1 & [O2|O2]); [discriminate O2|]. auto. }
    assert (Hn : forall i0 x0, Some (i, x) = Some (i0, x0) -> has i0 x0 /\ In (stop_ev i0 x0) todo).
    { intros i0 x0 E. injection E as <- <-. auto. }
    rewrite ploop_at_start in EP |- *. rewrite jloop_at_start.
    destruct Ag as [-> |(k & z & -> & Hz & Nz & Dz & Cp)].
    + destruct po as [[o y]|]; [destruct (sg_length y <=? sg_length x)|];
        (eapply IH; [exact EL'|exact EP|exact Ha'|first [exact Hn|exact Ho']|left; reflexivity]).
    + destruct (Z.leb_spec (sg_length z) (sg_length x)) as [Le|Gt].
      * assert (EP' : lp = acc ++ ploop (Some (i, x)) todo).
        { destruct Cp as [-> |(o & y & -> & _ & Ly & _)]; [exact EP|]. destruct (Z.leb_spec (sg_length y) (sg_length x)); [exact EP|lia]. }
        assert (EG : match po with Some (o, y) => if sg_length y <=? sg_length x then ploop (Some (i, x)) todo else ploop po todo | None => ploop (Some (i, x)) todo end = ploop (Some (i, x)) todo).
        { destruct Cp as [-> |(o & y & -> & _ & Ly & _)]; [reflexivity|]. destruct (Z.leb_spec (sg_length y) (sg_length x)); [reflexivity|lia]. }
        rewrite EG. eapply IH; [exact EL'|exact EP'|exact Ha'|exact Hn|left; reflexivity].
      * pose proof (Bef _ Dz) as B1. unfold T, stop_ev, start_ev, idx in B1. simpl in B1.
        assert (Blk : forall po', (po' = None \/ exists o y, po' = Some (o, y) /\ has o y /\ sg_length y < sg_length z /\ last_of z < sg_start y) ->
                  agree (done ++ [start_ev i x]) (Some (k, z)) po').
        { intros po' C. right. exists k, z. split; [reflexivity|]. split; [exact Hz|]. split; [exact Nz|]. split; [apply in_or_app; auto|exact C]. }
        assert (Cx : agree (done ++ [start_ev i x]) (Some (k, z)) (Some (i, x))).
        { apply Blk. right. exists i, x. split; [reflexivity|]. split; [exact Hi|]. lia. }
        destruct po as [[o y]|]; [destruct (sg_length y <=? sg_length x)|];
          (eapply IH; [exact EL'|exact EP|exact Ha'|first [exact Hn|exact Ho']|]); first [exact Cx|apply Blk; exact Cp].
  - assert (Nx : In (i, x) lp -> In (i, x) (ploop po (stop_ev i x :: todo))).
    { rewrite EP. intros J. apply in_app_or in J. destruct J as [J|J]; [|exact J]. apply Ha, Bef in J. unfold T in J. lia. }
    assert (Nt : forall op, ~ In (i, x) (ploop op todo)).
    { intros op J. apply ploop_stop in J; [|exact Vt]. destruct J as (_ & J). apply Aft in J. unfold T in J. lia. }
    assert (Ho' : forall i0 x0, po = Some (i0, x0) -> (i0, x0) <> (i, x) -> has i0 x0 /\ In (stop_ev i0 x0) todo).
    { intros i0 x0 E N. destruct (Ho i0 x0 E) as (O1 & [O2|O2]); [|auto]. exfalso. apply N. injection O2. congruence. }
    assert (Hnone : forall i0 x0, @None (nat * seg A) = Some (i0, x0) -> has i0 x0 /\ In (stop_ev i0 x0) todo) by discriminate.
    rewrite ploop_at_stop in Nx, EP |- *. rewrite jloop_at_stop.
    assert (Dst : In (stop_ev i x) (done ++ [stop_ev i x])) by (apply in_or_app; right; left; reflexivity).
    assert (Ha2 : forall i0 x0, In (i0, x0) (acc ++ [(i, x)]) -> In (stop_ev i0 x0) (done ++ [stop_ev i x])).
    { intros i0 x0 J. apply in_app_or in J. destruct J as [J|[J|[]]]; [auto|]. injection J as <- <-. exact Dst. }
    destruct Ag as [-> |(k & z & -> & Hz & Nz & Dz & Cp)].
    + destruct po as [[o y]|]; [destruct (Nat.eqb_spec o i) as [->|No]|].
      * destruct (IH (done ++ [stop_ev i x]) (acc ++ [(i, x)]) None None) as (I1 & I2);
          [exact EL'|rewrite <- app_assoc; exact EP|exact Ha2|exact Hnone|left; reflexivity|].
        split; [constructor; exact I1|]. intros j w [J|J]; [left; left; exact J|]. destruct (I2 j w J); [left; right; assumption|right; assumption].
      * eapply IH; [exact EL'|exact EP|exact Ha'| |left; reflexivity]. intros i0 x0 E. apply Ho'; congruence.
      * eapply IH; [exact EL'|exact EP|exact Ha'|exact Hnone|]. right. exists i, x. split; [reflexivity|]. split; [exact Hi|].
        split; [intros J; exact (Nt _ (Nx J))|]. split; [exact Dst|left; reflexivity].
    + assert (Nk : k <> i).
      { intros ->. assert (z = x) by congruence. subst z. apply Bef in Dz. unfold T in Dz. lia. }
      apply Nat.eqb_neq in Nk. rewrite Nk.
      destruct po as [[o y]|]; [destruct (Nat.eqb_spec o i) as [->|No]|].
      * destruct (IH (done ++ [stop_ev i x]) (acc ++ [(i, x)]) (Some (k, z)) None) as (I1 & I2);
          [exact EL'|rewrite <- app_assoc; exact EP|exact Ha2|exact Hnone| |].
        { right. exists k, z. split; [reflexivity|]. split; [exact Hz|]. split; [exact Nz|]. split; [apply in_or_app; auto|left; reflexivity]. }
        split; [constructor; exact I1|]. intros j w [J|J]; [|apply I2; exact J].
        injection J as <- <-. right. destruct Cp as [C|(o & y' & C & Hy & C1 & C2)]; [discriminate C|]. injection C as <- <-.
        assert (y = x) by congruence. subst y. exists k, z. auto.
      * eapply IH; [exact EL'|exact EP|exact Ha'| |].
        { intros i0 x0 E. apply Ho'; congruence. }
        apply excused_stays. right. exists k, z. auto.
      * eapply IH; [exact EL'|exact EP|exact Ha'|exact Hnone|]. apply excused_stays. right. exists k, z. auto.
Qed.

Lemma subseq_in {B} (l m : list B) x : subseq l m -> In x l -> In x m.
Proof. induction 1; simpl; intros I; [destruct I|destruct I; auto|auto]. Qed.
Lemma subseq_all {B} (l m : list B) : NoDup m -> subseq l m -> (forall x, In x m -> In x l) -> l = m.
Proof.
  intros N H. induction H as [|x l m H IH|x l m H IH]; intros K; [reflexivity| |].
  - inversion N as [|? ? N1 N2]; subst. f_equal. apply IH; [exact N2|]. intros y I. destruct (K y (or_intror I)) as [->|J]; [contradiction|exact J].
  - exfalso. inversion N as [|? ? N1 N2]; subst. apply N1. eapply subseq_in; [exact H|apply K; left; reflexivity].
Qed.
Lemma last_before i x j y : has i x -> has j y -> last_of x < sg_start y -> before (fst x) (fst y).
Proof.
  intros Hx Hy Lt p q Hp Hq. change (fst x) with (ext x) in Hp. change (fst y) with (ext y) in Hq.
  rewrite (on_ext segs proper i x) in Hp by exact Hx. rewrite (on_ext segs proper j y) in Hq by exact Hy. lia.
Qed.
Lemma lp_has i x : In (i, x) lp -> has i x.
Proof. intros I. apply ploop_stop in I; [tauto|auto]. Qed.
Lemma ploop_nodup todo : forall open, (forall e, In e todo -> In e L) -> StronglySorted T todo -> NoDup (ploop open todo).
Proof.
  induction todo as [|e todo IH]; intros open V H; [constructor|]. inversion H as [|? ? Hs F]; subst.
  assert (V' : forall e', In e' todo -> In e' L) by (intros; apply V; right; assumption).
  destruct (L_ev e) as (k & y & Hk & E); [apply V; left; reflexivity|].
  destruct E as [-> | ->]; [rewrite ploop_at_start|rewrite ploop_at_stop];
    (destruct open as [[o z]|]; [|apply IH; assumption]).
  - destruct (_ <=? _); apply IH; assumption.
  - destruct (Nat.eqb o k); [|apply IH; assumption]. constructor; [|apply IH; assumption]. intros I. apply ploop_stop in I; [|exact V'].
    rewrite Forall_forall in F. destruct I as (_ & I). apply F in I. unfold T in I. lia.
Qed.
Lemma lp_nodup : NoDup lp.
Proof. apply ploop_nodup; [auto|apply L_sorted]. Qed.
(** Python's sweep on segments that carry their place *)
Definition tag (i : nat) (x : seg A) : seg (nat * seg A) := (sg_start x, sg_stop x, (i, x)).
Fixpoint tagged (i : nat) (l : list (seg A)) : list (seg (nat * seg A)) :=
  match l with [] => [] | x :: r => tag i x :: tagged (S i) r end.
Lemma tagged_nth l : forall i k y, nth_error (tagged i l) k = Some y <-> exists x, nth_error l k = Some x /\ y = tag (i + k) x.
Proof.
  induction l as [|x l IH]; intros i k y; [destruct k; simpl; split; [discriminate|intros (z & H & _); discriminate H|discriminate|intros (z & H & _); discriminate H]|].
  destruct k as [|k]; simpl.
  - rewrite Nat.add_0_r. split; [intros E; injection E as <-; eauto|]. intros (z & E & ->). injection E as <-. reflexivity.
  - rewrite IH. rewrite Nat.add_succ_r. reflexivity.
Qed.
End J.
Section K.
Context {A : Type}.
Definition tag_ev (e : @ev A) : @ev (nat * seg A) := (fst e, (fst (snd e), tag (fst (snd e)) (snd (snd e)))).
Lemma tag_events (l : list (seg A)) : forall i, dr_events i (tagged i l) = map tag_ev (dr_events i l).
Proof.
  induction l as [|x l IH]; intros i; [reflexivity|]. simpl. rewrite IH. unfold tag_ev, tag, sg_start, sg_stop. simpl.
  destruct (negb _); reflexivity.
Qed.
Definition tag2 (p : nat * seg A) : nat * seg (nat * seg A) := (fst p, tag (fst p) (snd p)).
Lemma ploop_tag es : forall open, ploop (option_map tag2 open) (map tag_ev es) = map tag2 (ploop open es).
Proof.
  induction es as [|[[q m] [i x]] es IH]; intros open; [reflexivity|]. simpl.
  destruct (m =? 0).
  - destruct open as [[o y]|]; simpl; [|exact (IH (Some (i, x)))]. change (sg_length (tag o y)) with (sg_length y). change (sg_length (tag i x)) with (sg_length x).
    destruct (_ <=? _); [exact (IH (Some (i, x)))|exact (IH (Some (o, y)))].
  - destruct open as [[o y]|]; simpl; [|exact (IH None)]. destruct (Nat.eqb o i); [simpl; f_equal; exact (IH None)|exact (IH (Some (o, y)))].
Qed.
Variable segs : list (seg A).
Hypothesis proper : forall x, In x segs -> sg_start x <= sg_stop x.
Notation has i x := (nth_error segs i = Some x).
Notation lp := (lp segs).
Notation lj := (lj segs).
Lemma tagged_lp : dominant_right (tagged 0 segs) = lp.
Proof.
  rewrite python_items. unfold Proof_JAlgorithm.lp, Proof_Algorithm.L. rewrite tag_events.
  rewrite (ssort_map fst fst lex_leb tag_ev) by reflexivity. rewrite (ploop_tag _ None), map_map. simpl.
  rewrite map_ext with (g := fun p => p); [apply map_id|]. intros [i x]. reflexivity.
Qed.
Lemma lp_ok : StronglySorted (fun a b => before (fst (snd a)) (fst (snd b))) lp /\
  (forall j y, has j y -> In (j, y) lp \/ exists i x, has i x /\ shares (fst x) (fst y) /\ beats i (fst x) j (fst y)) /\
  (forall j y, has j y -> (forall i x, has i x -> i <> j -> shares (fst x) (fst y) -> beats j (fst y) i (fst x)) -> In (j, y) lp).
Proof.
  destruct (dominant_right_ok (tagged 0 segs)) as (l & E1 & E2 & E3 & E4 & E5).
  { intros z I. apply In_nth_error in I. destruct I as (k & I). apply tagged_nth in I. destruct I as (x & I & ->).
    exact (proper x (nth_error_In _ _ I)). }
  rewrite tagged_lp in E1.
  assert (Lt : forall i x, In (i, x) l -> exists y, has i y /\ x = tag i y).
  { intros i x I. apply E2, tagged_nth in I. exact I. }
  assert (Fe : forall i (x : seg A), ext (tag i x) = fst x) by (intros i [[a b] c]; reflexivity).
  assert (Back : forall i x, In (i, tag i x) l -> In (i, x) lp).
  { intros i x I. rewrite E1. apply in_map_iff. exists (i, tag i x). auto. }
  assert (Ht : forall i x, has i x -> nth_error (tagged 0 segs) i = Some (tag i x)).
  { intros i x H. apply tagged_nth. exists x. auto. }
  split; [|split].
  - rewrite E1. clear E1 E2 E4 E5 Back. induction E3 as [|[i x] l Hs IH F]; [constructor|]. simpl. constructor.
    + apply IH. intros; apply Lt; right; assumption.
    + rewrite Forall_forall in *. intros p I. apply in_map_iff in I. destruct I as ([j y] & <- & I). specialize (F _ I). simpl in F |- *.
      destruct (Lt i x (or_introl eq_refl)) as (x' & _ & ->). destruct (Lt j y (or_intror I)) as (y' & _ & ->). rewrite !Fe in F. exact F.
  - intros j y H. destruct (E4 j (tag j y) (Ht j y H)) as [I|(i & x & Hi & Sh & B)]; [left; auto|right].
    apply tagged_nth in Hi. destruct Hi as (z & Hz & ->). rewrite !Fe in Sh, B. exists i, z. auto.
  - intros j y H D. apply Back. apply E5; [auto|]. intros i x Hi N. apply tagged_nth in Hi. destruct Hi as (z & Hz & ->). simpl (_ + _)%nat. rewrite !Fe. apply D; auto.
Qed.
Theorem java_against_python : exists lp lj,
  dominant_right segs = map (fun p => sg_item (snd p)) lp /\ java_resolve segs = map (fun p => sg_item (snd p)) lj /\
  (forall i x, In (i, x) lp -> has i x) /\ subseq lj lp /\
  (forall j y, In (j, y) lp -> In (j, y) lj \/ exists i x, has i x /\ ~ In (i, x) lp /\ before (fst x) (fst y) /\ longer (fst x) (fst y)).
Proof.
  exists lp, lj. destruct (sweep_sub segs proper (Proof_Algorithm.L segs) [] [] None None) as (H1 & H2); [reflexivity|reflexivity|intros ? ? []|discriminate|left; reflexivity|].
  split; [apply python_items|]. split; [apply java_items|]. split; [apply lp_has|]. split; [exact H1|].
  intros j y I. destruct (H2 j y I) as [J|(i & x & G1 & G2 & G3 & G4)]; [left; exact J|right].
  exists i, x. split; [exact G1|]. split; [exact G2|]. split; [eapply last_before; [exact proper|exact G1|apply lp_has; exact I|exact G3]|exact G4].
Qed.
Lemma subseq_sorted {B} (R : B -> B -> Prop) l m : subseq l m -> StronglySorted R m -> StronglySorted R l.
Proof.
  induction 1 as [|x l m H IH|x l m H IH]; intros S; [constructor| |].
  - inversion S as [|? ? S1 S2]; subst. constructor; [auto|]. rewrite Forall_forall in *. intros y I. apply S2. eapply subseq_in; eassumption.
  - inversion S; subst. auto.
Qed.
Lemma lj_sub : subseq lj lp /\ (forall j y, In (j, y) lp -> In (j, y) lj \/ exists i x, has i x /\ ~ In (i, x) lp /\ before (fst x) (fst y) /\ longer (fst x) (fst y)).
Proof.
  destruct (sweep_sub segs proper (Proof_Algorithm.L segs) [] [] None None) as (H1 & H2); [reflexivity|reflexivity|intros ? ? []|discriminate|left; reflexivity|].
  split; [exact H1|]. intros j y I. destruct (H2 j y I) as [J|(i & x & G1 & G2 & G3 & G4)]; [left; exact J|right].
  exists i, x. split; [exact G1|]. split; [exact G2|]. split; [eapply last_before; [exact proper|exact G1|apply lp_has; exact I|exact G3]|exact G4].
Qed.
Theorem java_dominant : exists l, java_resolve segs = map (fun p => sg_item (snd p)) l /\
  (forall i x, In (i, x) l -> has i x) /\
  StronglySorted (fun a b => before (fst (snd a)) (fst (snd b))) l /\
  (forall j y, has j y -> In (j, y) l \/ (exists i x, has i x /\ shares (fst x) (fst y) /\ beats i (fst x) j (fst y)) \/
     exists i x, has i x /\ before (fst x) (fst y) /\ longer (fst x) (fst y)).
Proof.
  exists lj. destruct lj_sub as (H1 & H2). destruct lp_ok as (P1 & P2 & _). split; [apply java_items|].
  split; [intros i x I; apply lp_has; eapply subseq_in; eassumption|]. split; [eapply subseq_sorted; eassumption|].
  intros j y H. destruct (P2 j y H) as [I|B]; [|auto]. destruct (H2 j y I) as [J|(i & x & G1 & _ & G3)]; [auto|]. right. right. exists i, x. auto.
Qed.
Theorem java_same : (forall i x j y, has i x -> has j y -> before (fst x) (fst y) -> longer (fst x) (fst y) ->
    forall k z, has k z -> k <> i -> shares (fst z) (fst x) -> beats i (fst x) k (fst z)) -> java_resolve segs = dominant_right segs.
Proof.
  intros H. rewrite java_items, python_items. f_equal. destruct lj_sub as (H1 & H2). apply subseq_all; [apply lp_nodup|exact H1|].
  intros [j y] I. destruct (H2 j y I) as [J|(i & x & G1 & G2 & G3 & G4)]; [exact J|]. exfalso. apply G2.
  destruct lp_ok as (_ & _ & P3). apply P3; [exact G1|]. intros k z Hk N Sh. eapply (H i x j y); eauto. apply lp_has in I. exact I.
Qed.
End K.
