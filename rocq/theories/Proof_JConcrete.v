(** Lemmas for C114. *)
From Coq Require Import Sorted.
From Verif Require Import PyBase PyBaseFacts Model_Query Model_Heap Model_Layer Model_JGroup Model_JConcrete Spec_JConcrete Proof_Query Proof_JGroup Proof_JGroup2.

Section Concrete.
Context {O V : Type}.
Implicit Types (i : iface O V) (n : cnode O V).

Lemma own_get i f : In f (own_fields i) <-> dget (i_get i) f <> None.
Proof.
  unfold own_fields. split.
  - intros I E. apply dget_None in E. exact (E I).
  - intros H. destruct (dget (i_get i) f) as [g|] eqn:E; [|now elim H]. apply dget_In in E. apply (in_map fst) in E. exact E.
Qed.
Lemma same_keys {A B} (a : dict A) (b : dict B) f : dkeys a = dkeys b -> dget a f = None -> dget b f = None.
Proof.
  intros E N0. destruct (dget b f) as [x|] eqn:G; [|reflexivity]. apply dget_In in G. apply (in_map fst) in G.
  change (In f (dkeys b)) in G. rewrite <- E in G. apply dget_None in N0. elim (N0 G).
Qed.
Definition mem_dec (f : pystr) (l : list pystr) : {In f l} + {~ In f l} := in_dec (list_eq_dec N.eq_dec) f l.
Lemma sorted_NoDup l : StronglySorted key_lt l -> NoDup l.
Proof.
  induction 1 as [|x l Hs IH F]; constructor; [|exact IH]. intros I. rewrite Forall_forall in F. specialize (F x I). unfold key_lt in F.
  rewrite str_cmp_refl in F. discriminate F.
Qed.
Lemma sorted_ddel {A} (d : dict A) k : StronglySorted key_lt (dkeys d) -> StronglySorted key_lt (dkeys (ddel d k)).
Proof.
  induction d as [|[x w] d IH]; simpl; intros H; [constructor|]. inversion H as [|? ? Hs F]; subst. destruct (str_eqb k x); [exact Hs|].
  simpl. constructor; [exact (IH Hs)|]. apply Forall_forall. intros y I. apply dkeys_ddel_incl in I. rewrite Forall_forall in F. exact (F y I).
Qed.

Lemma NoDup_both (a b : list pystr) : NoDup a -> NoDup b -> (forall x, In x a -> ~ In x b) -> NoDup (a ++ b).
Proof.
  induction 1 as [|x a Nx H IH]; intros Hb D; [exact Hb|]. simpl. constructor.
  - intros I. apply in_app_iff in I. destruct I as [I|I]; [exact (Nx I)|exact (D x (or_introl eq_refl) I)].
  - apply IH; [exact Hb|]. intros y I. apply D. right. exact I.
Qed.

(** What a series of calls has done: the fields of the class, and the map, which holds none of them. *)
Definition agrees i (o : O) (val : pystr -> option V) n : Prop :=
  StronglySorted key_lt (dkeys (c_data n)) /\
  (forall f, In f (own_fields i) -> dget (c_data n) f = None) /\
  (forall f, c_get i n f = match val f with Some v => Ok (Some v) | None => c_get i (c_new o) f end).

Lemma agrees_new i o : agrees i o (fun _ => None) (c_new o).
Proof. repeat split. constructor. Qed.

Lemma sound_none i fits f : sound i fits -> dget (i_set i) f = None <-> dget (i_get i) f = None.
Proof. intros (K & _). split; apply same_keys; [exact K|symmetry; exact K]. Qed.

Lemma put_agrees i fits o val n f v : sound i fits -> (In f (own_fields i) -> fits f v) -> agrees i o val n ->
  exists n', c_put i n f v = (n', Ok tt) /\ agrees i o (fun g => if str_eqb g f then Some v else val g) n'.
Proof.
  intros S0 F (A & B & C). unfold c_put. destruct (dget (i_set i) f) as [st|] eqn:E.
  - assert (I : In f (own_fields i)). { apply own_get. intros G. apply (sound_none _ _ _ S0) in G. congruence. }
    pose proof S0 as (K & ND & T & L). destruct (L f st (c_own n) v E (F I)) as (o' & Es & Same & Other). rewrite Es.
    eexists. split; [reflexivity|]. split; [exact A|]. split; [exact B|]. intros g. specialize (C g). unfold c_get in *. cbn [c_own c_data] in *.
    destruct (str_eqb_spec g f) as [->|Ne].
    + destruct (dget (i_get i) f) as [g0|] eqn:G; [|apply own_get in I; congruence]. rewrite (Same g0 eq_refl). reflexivity.
    + destruct (dget (i_get i) g) as [g0|] eqn:G; [|exact C]. rewrite (Other g g0 Ne G). exact C.
  - assert (G : dget (i_get i) f = None) by (apply (sound_none _ _ _ S0); exact E).
    eexists. split; [reflexivity|]. split; [apply tm_sorted; exact A|]. split.
    + intros g I. cbn [c_data]. rewrite tm_get. destruct (str_eqb_spec g f) as [->|]; [apply own_get in I; congruence|exact (B g I)].
    + intros g. specialize (C g). unfold c_get in *. cbn [c_own c_data] in *. destruct (str_eqb_spec g f) as [->|Ne].
      * rewrite G, tm_get, str_eqb_refl. reflexivity.
      * destruct (dget (i_get i) g) as [g0|]; [exact C|]. rewrite tm_get. destruct (str_eqb_spec g f); [contradiction|exact C].
Qed.

Lemma ddel_get {A} (d : dict A) k f : NoDup (dkeys d) -> dget (ddel d k) f = if str_eqb f k then None else dget d f.
Proof. intros H. destruct (str_eqb_spec f k) as [->|Ne]; [apply dget_ddel_same, H|apply dget_ddel_other, Ne]. Qed.

(** setData: the setters [ss] that are still to come *)
Lemma set_agrees i fits : sound i fits -> forall ss o d,
  (forall k st, In (k, st) ss -> dget (i_set i) k = Some st) -> NoDup (dkeys ss) ->
  StronglySorted key_lt (dkeys d) -> (forall f v, In f (own_fields i) -> dget d f = Some v -> fits f v) ->
  exists o' d', set_fields ss o d = (o', d', Ok tt) /\ StronglySorted key_lt (dkeys d') /\
    (forall f, dget d' f = if mem_dec f (dkeys ss) then None else dget d f) /\
    (forall f g, dget (i_get i) f = Some g -> g o' = match dget d f with Some v => if mem_dec f (dkeys ss) then Ok v else g o | None => g o end).
Proof.
  intros S0. pose proof S0 as (K & ND & T & L). induction ss as [|[k st] ss IH]; intros o d Hin Hnd Hs Hf.
  - exists o, d. split; [reflexivity|]. split; [exact Hs|]. split; [intros f; reflexivity|]. intros f g G. destruct (dget d f); reflexivity.
  - simpl in Hnd. inversion Hnd as [|? ? Nk Hnd']; subst.
    assert (E : dget (i_set i) k = Some st) by (apply Hin; left; reflexivity).
    assert (I : In k (own_fields i)). { apply own_get. intros G. apply (sound_none _ _ _ S0) in G. congruence. }
    cbn [set_fields]. destruct (dget d k) as [v|] eqn:Dk.
    + destruct (L k st o v E (Hf k v I Dk)) as (o1 & Es & Same & Other). rewrite Es.
      destruct (IH o1 (ddel d k)) as (o' & d' & R & Rs & Rd & Rg).
      * intros k' st' Hk. apply Hin. right. exact Hk.
      * exact Hnd'.
      * apply sorted_ddel, Hs.
      * intros f w If Df. apply (Hf f w If). destruct (str_eqb_spec f k) as [->|Ne]; [rewrite dget_ddel_same in Df by (apply sorted_NoDup, Hs); discriminate Df|].
        rewrite dget_ddel_other in Df by exact Ne. exact Df.
      * exists o', d'. split; [exact R|]. split; [exact Rs|]. pose proof (sorted_NoDup _ Hs) as NDd. split.
        -- intros f. rewrite Rd, ddel_get by exact NDd. cbn [dkeys map fst]. 
           destruct (str_eqb_spec f k) as [->|Ne].
           ++ destruct (mem_dec k (k :: map fst ss)) as [_|Nn]; [|elim Nn; left; reflexivity]. destruct (mem_dec k (dkeys ss)); reflexivity.
           ++ destruct (mem_dec f (dkeys ss)) as [i1|n1], (mem_dec f (k :: map fst ss)) as [i2|n2]; try reflexivity.
              ** elim n2. right. exact i1.
              ** destruct i2 as [->|i2]; [now elim Ne|elim (n1 i2)].
        -- intros f g G. rewrite (Rg f g G), ddel_get by exact NDd. destruct (str_eqb_spec f k) as [->|Ne].
           ++ rewrite (Same g G), Dk. destruct (mem_dec k (dkeys ((k, st) :: ss))) as [_|Nn]; [reflexivity|elim Nn; left; reflexivity].
           ++ rewrite (Other f g Ne G). destruct (dget d f) as [w|]; [|reflexivity].
              destruct (mem_dec f (dkeys ss)) as [i1|n1], (mem_dec f (dkeys ((k, st) :: ss))) as [i2|n2]; try reflexivity.
              ** elim n2. right. exact i1.
              ** destruct i2 as [E2|i2]; [simpl in E2; now elim Ne|elim (n1 i2)].
    + destruct (IH o d) as (o' & d' & R & Rs & Rd & Rg); [intros k' st' Hk; apply Hin; right; exact Hk|exact Hnd'|exact Hs|exact Hf|].
      exists o', d'. split; [exact R|]. split; [exact Rs|]. split.
      * intros f. rewrite Rd. destruct (mem_dec f (dkeys ss)) as [i1|n1], (mem_dec f (dkeys ((k, st) :: ss))) as [i2|n2]; try reflexivity.
        -- elim n2. right. exact i1.
        -- destruct i2 as [E2|i2]; [simpl in E2; subst f; exact Dk|elim (n1 i2)].
      * intros f g G. rewrite (Rg f g G). destruct (dget d f) as [w|] eqn:Df; [|reflexivity].
        destruct (mem_dec f (dkeys ss)) as [i1|n1], (mem_dec f (dkeys ((k, st) :: ss))) as [i2|n2]; try reflexivity.
        -- elim n2. right. exact i1.
        -- destruct i2 as [E2|i2]; [simpl in E2; subst f; congruence|elim (n1 i2)].
Qed.

Lemma data_agrees i fits o val n d : sound i fits -> fitting i fits (NData d) -> agrees i o val n ->
  exists n', c_set i n d = (n', Ok tt) /\
    agrees i o (fun f => match dget d f with Some v => Some v | None => if mem_dec f (own_fields i) then val f else None end) n'.
Proof.
  intros S0 (Hs & Hf) (A & B & C). pose proof S0 as (K & ND & T & L).
  destruct (set_agrees i fits S0 (i_set i) (c_own n) d) as (o' & d' & R & Rs & Rd & Rg).
  - intros k st I. apply dget_nodup; [rewrite K; exact ND|exact I].
  - rewrite K. exact ND.
  - exact Hs.
  - exact Hf.
  - unfold c_set. rewrite R. eexists. split; [reflexivity|]. split; [exact Rs|]. rewrite K in Rd, Rg. fold (own_fields i) in Rd, Rg. split.
    + intros f I. cbn [c_data]. rewrite Rd. destruct (mem_dec f (own_fields i)) as [_|Nn]; [reflexivity|elim (Nn I)].
    + intros f. specialize (C f). unfold c_get in *. cbn [c_own c_data] in *. destruct (dget (i_get i) f) as [g|] eqn:G.
      * assert (I : In f (own_fields i)) by (apply own_get; congruence). rewrite (Rg f g G).
        destruct (mem_dec f (own_fields i)) as [_|Nn]; [|elim (Nn I)]. destruct (dget d f) as [v|]; [reflexivity|exact C].
      * assert (I : ~ In f (own_fields i)) by (intros I; apply own_get in I; congruence). rewrite Rd.
        destruct (mem_dec f (own_fields i)) as [i1|_]; [elim (I i1)|]. destruct (dget d f); reflexivity.
Qed.

(** the value of every field after the calls *)
Fixpoint values (keeps : list pystr) (l : list (ncall V)) (val : pystr -> option V) : pystr -> option V :=
  match l with
  | [] => val
  | NPut f v :: r => values keeps r (fun g => if str_eqb g f then Some v else val g)
  | NData d :: r => values keeps r (fun f => match dget d f with Some v => Some v | None => if mem_dec f keeps then val f else None end)
  end.
Lemma calls_agree i fits o l : sound i fits -> Forall (fitting i fits) l -> forall val n, agrees i o val n ->
  exists n', c_calls i n l = (n', Ok tt) /\ agrees i o (values (own_fields i) l val) n'.
Proof.
  intros S0 F. induction F as [|c l Fc F IH]; intros val n A; [exists n; split; [reflexivity|exact A]|].
  destruct c as [f v|d]; cbn [c_calls c_call values].
  - destruct (put_agrees i fits o val n f v S0 Fc A) as (n1 & E & A1). rewrite E. exact (IH _ _ A1).
  - destruct (data_agrees i fits o val n d S0 Fc A) as (n1 & E & A1). rewrite E. exact (IH _ _ A1).
Qed.
Lemma values_app keeps l1 : forall l2 val, values keeps (l1 ++ l2) val = values keeps l2 (values keeps l1 val).
Proof. induction l1 as [|[f v|d] l1 IH]; intros l2 val; [reflexivity| |]; simpl; apply IH. Qed.
Lemma given_values keeps f l x : given (fun k => In k keeps) f l x -> x = values keeps l (fun _ => None) f.
Proof.
  induction 1 as [|l c was now G IH H]; [reflexivity|]. rewrite values_app. subst was. destruct c as [g v|d]; simpl in *.
  - destruct H as [[-> ->]|[Ne ->]]; [rewrite str_eqb_refl; reflexivity|]. destruct (str_eqb_spec f g); [contradiction|reflexivity].
  - destruct (dget d f); [exact H|]. destruct H as [[I ->]|[I ->]]; destruct (mem_dec f keeps); try reflexivity; contradiction.
Qed.

Lemma calls_values i fits o l : sound i fits -> Forall (fitting i fits) l ->
  exists n, c_calls i (c_new o) l = (n, Ok tt) /\
    forall f x, given (fun k => In k (own_fields i)) f l x ->
      c_get i n f = match x with Some v => Ok (Some v) | None => c_get i (c_new o) f end.
Proof.
  intros S0 F. destruct (calls_agree i fits o l S0 F _ _ (agrees_new i o)) as (n & E & A & B & C). exists n. split; [exact E|].
  intros f x G. apply given_values in G. rewrite G. apply C.
Qed.

(** a plain node *)
Lemma plain_values keeps l : forall val (m : dict V),
  (forall f v, dget m f = Some v -> val f = Some v) -> (forall f, ~ In f keeps -> val f = dget m f) ->
  let m' := fold_left p_call l m in
  (forall f v, dget m' f = Some v -> values keeps l val f = Some v) /\ (forall f, ~ In f keeps -> values keeps l val f = dget m' f).
Proof.
  induction l as [|[g v|d] l IH]; intros val m H1 H2; [split; assumption| |]; cbn [fold_left values p_call]; apply IH.
  - intros f w. rewrite tm_get. destruct (str_eqb f g); [auto|apply H1].
  - intros f N0. rewrite tm_get. destruct (str_eqb f g); [auto|apply H2, N0].
  - intros f w ->. reflexivity.
  - intros f N0. destruct (dget d f); [reflexivity|]. destruct (mem_dec f keeps); [contradiction|reflexivity].
Qed.
Lemma calls_plain i fits o l : sound i fits -> Forall (fitting i fits) l ->
  exists n, c_calls i (c_new o) l = (n, Ok tt) /\
    (forall f v, dget (p_calls l) f = Some v -> c_get i n f = Ok (Some v)) /\
    (forall f, ~ In f (own_fields i) -> c_get i n f = Ok (dget (p_calls l) f) /\ c_has i n f = dmem (p_calls l) f).
Proof.
  intros S0 F. destruct (calls_agree i fits o l S0 F _ _ (agrees_new i o)) as (n & E & A & B & C). exists n. split; [exact E|].
  destruct (plain_values (own_fields i) l (fun _ => None) []) as [P1 P2]; [discriminate|reflexivity|]. fold (p_calls l) in P1, P2. split.
  - intros f v G. rewrite C, (P1 f v G). reflexivity.
  - intros f N0. assert (G : dget (i_get i) f = None) by (destruct (dget (i_get i) f) eqn:G; [elim N0; apply own_get; congruence|reflexivity]).
    assert (Q : c_get i n f = Ok (dget (p_calls l) f)).
    { rewrite C, (P2 f N0). destruct (dget (p_calls l) f); [reflexivity|]. unfold c_get. rewrite G. reflexivity. }
    split; [exact Q|]. unfold c_get in Q. rewrite G in Q. apply Ok_inj' in Q. unfold c_has, dmem. rewrite G, Q. reflexivity.
Qed.

(** what is inherited: get with a default, remove *)
Lemma calls_inherited i fits o l : sound i fits -> Forall (fitting i fits) l ->
  exists n, c_calls i (c_new o) l = (n, Ok tt) /\
    (forall f d, c_get_or n f d = if dmem (i_get i) f then d else match dget (p_calls l) f with Some v => v | None => d end) /\
    (forall f g, c_get i (c_remove n f) g = if str_eqb g f && negb (dmem (i_get i) f) then Ok None else c_get i n g) /\
    (forall f, In f (own_fields i) -> c_remove n f = n).
Proof.
  intros S0 F. destruct (calls_agree i fits o l S0 F _ _ (agrees_new i o)) as (n & E & A & B & C).
  destruct (calls_plain i fits o l S0 F) as (n2 & E2 & _ & P). rewrite E in E2. inversion E2; subst n2. clear E2.
  exists n. split; [exact E|]. split; [|split].
  - intros f d. unfold c_get_or, dmem. destruct (dget (i_get i) f) as [g|] eqn:G.
    + rewrite (B f); [reflexivity|]. apply own_get. congruence.
    + destruct (P f) as [Q _]; [intros I; apply own_get in I; congruence|]. unfold c_get in Q. rewrite G in Q. apply Ok_inj' in Q. rewrite Q. reflexivity.
  - intros f g. unfold c_get, c_remove, dmem. cbn [c_own c_data]. destruct (str_eqb_spec g f) as [->|Ne]; cbn [andb].
    + destruct (dget (i_get i) f); cbn [negb]; [reflexivity|]. rewrite dget_ddel_same by (apply sorted_NoDup, A). reflexivity.
    + destruct (dget (i_get i) g); [reflexivity|]. rewrite dget_ddel_other by exact Ne. reflexivity.
  - intros f I. unfold c_remove. rewrite ddel_absent by exact (B f I). destruct n; reflexivity.
Qed.
Lemma calls_stop i l : forall n m n' c e r, c_calls i n l = (m, Ok tt) -> c_call i m c = (n', Err e) -> c_calls i n (l ++ c :: r) = (n', Err e).
Proof.
  induction l as [|x l IH]; intros n m n' c e r E1 E2; simpl in *.
  - inversion E1; subst m. rewrite E2. reflexivity.
  - destruct (c_call i n x) as [n1 [[]|e1]]; [|discriminate E1]. exact (IH _ _ _ _ _ _ E1 E2).
Qed.

(** forEach *)
Lemma visit_ok (gs : dict (getter O V)) o : (forall f g, In (f, g) gs -> exists v, g o = Ok v) ->
  exists vs, visit_own gs o = (vs, Ok tt) /\ map fst vs = dkeys gs /\ forall f v, In (f, v) vs <-> exists g, In (f, g) gs /\ g o = Ok v.
Proof.
  induction gs as [|[k g] gs IH]; intros T.
  - exists []. split; [reflexivity|]. split; [reflexivity|]. intros f v. split; [intros []|intros (g & [] & _)].
  - destruct IH as (vs & E & K & I); [intros f g' H; apply (T f g'); right; exact H|].
    destruct (T k g (or_introl eq_refl)) as [v Ev]. exists ((k, v) :: vs). simpl. rewrite Ev, E. split; [reflexivity|]. split; [rewrite K; reflexivity|].
    intros f w. split.
    + intros [H|H]; [inversion H; subst; exists g; auto|]. apply I in H. destruct H as (g' & H & Eg). exists g'. auto.
    + intros (g' & [H|H] & Eg); [inversion H; subst; left; rewrite Eg in Ev; apply Ok_inj' in Ev; subst; reflexivity|]. right. apply I. exists g'. auto.
Qed.
Lemma calls_visits i fits o l : sound i fits -> Forall (fitting i fits) l ->
  exists n vs, c_calls i (c_new o) l = (n, Ok tt) /\ c_visit i n = (vs, Ok tt) /\ NoDup (map fst vs) /\
    forall f v, In (f, v) vs <-> c_has i n f = true /\ c_get i n f = Ok (Some v).
Proof.
  intros S0 F. destruct (calls_agree i fits o l S0 F _ _ (agrees_new i o)) as (n & E & A & B & C).
  pose proof S0 as (K & ND & T & L).
  destruct (visit_ok (i_get i) (c_own n)) as (vs & Ev & Kv & Iv).
  { intros f g I. apply (T f g). apply dget_nodup; [exact ND|exact I]. }
  exists n, (c_data n ++ vs). split; [exact E|]. unfold c_visit. rewrite Ev. split; [reflexivity|]. split.
  - rewrite map_app, Kv. apply NoDup_both; [apply sorted_NoDup, A|exact ND|]. intros f I1 I2. specialize (B f I2). apply dget_None in B. exact (B I1).
  - intros f v. rewrite in_app_iff, Iv. unfold c_has, c_get, dmem. pose proof (sorted_NoDup _ A) as ND2. split.
    + intros [I|(g & I & Eg)].
      * apply dget_nodup in I; [|exact ND2]. assert (G : dget (i_get i) f = None).
        { destruct (dget (i_get i) f) eqn:G; [|reflexivity]. rewrite (B f) in I; [discriminate I|]. apply own_get. congruence. }
        rewrite G, I. split; reflexivity.
      * apply dget_nodup in I; [|exact ND]. rewrite I, Eg. split; reflexivity.
    + intros [H G]. destruct (dget (i_get i) f) as [g|] eqn:Gf.
      * right. exists g. split; [exact (dget_In _ _ Gf)|]. destruct (g (c_own n)); [|discriminate G]. simpl in G. apply Ok_inj' in G. congruence.
      * left. apply Ok_inj' in G. exact (dget_In _ _ G).
Qed.

(** the builder *)
Lemma tm_same {A B} k (a : A) (b : B) m : forall m', dkeys m = dkeys m' -> dkeys (tm_put k a m) = dkeys (tm_put k b m').
Proof.
  induction m as [|[x w] m IH]; intros [|[x' w'] m'] H; try discriminate H; [reflexivity|]. simpl in H. inversion H; subst x'. simpl.
  destruct (str_cmp k x); simpl; [exact H|f_equal; exact H|]. f_equal. apply IH. assumption.
Qed.
Lemma built (l : list (pystr * (getter O V * setter O V))) :
  dkeys (i_set (build_iface l)) = dkeys (i_get (build_iface l)) /\ StronglySorted (fun x y => str_cmp x y = Lt) (own_fields (build_iface l)) /\
  forall f, match find (fun x => str_eqb f (fst x)) (rev l) with
            | Some x => dget (i_get (build_iface l)) f = Some (fst (snd x)) /\ dget (i_set (build_iface l)) f = Some (snd (snd x))
            | None => dget (i_get (build_iface l)) f = None /\ dget (i_set (build_iface l)) f = None
            end.
Proof.
  induction l as [|[k [g st]] l IH] using rev_ind.
  - split; [reflexivity|]. split; [constructor|]. intros f. split; reflexivity.
  - assert (E : build_iface (l ++ [(k, (g, st))]) = add_field (build_iface l) k g st) by (unfold build_iface; rewrite fold_left_app; reflexivity).
    rewrite E. clear E. destruct IH as (K & S0 & G). unfold add_field, own_fields in *. cbn [i_get i_set].
    split; [apply tm_same, K|]. split; [apply (tm_sorted k), S0|]. intros f. rewrite rev_app_distr. cbn [rev app find fst snd]. rewrite !tm_get.
    destruct (str_eqb f k); [split; reflexivity|exact (G f)].
Qed.

(** references *)
Lemma reference_plain (rep : V -> res V) i n f c :
  dkeys (i_set i) = dkeys (i_get i) -> ~ In f (own_fields i) -> dget (c_data n) f = None ->
  match c with
  | None => read_reference rep i n f c = (n, Ok tt)
  | Some v => match rep v with
              | Ok w => exists n', read_reference rep i n f c = (n', Ok tt) /\ c_get i n' f = Ok (Some w) /\ c_own n' = c_own n
              | Err e => snd (read_reference rep i n f c) = Err e
              end
  end.
Proof.
  intros K N0 D. assert (G : dget (i_get i) f = None) by (destruct (dget (i_get i) f) eqn:G; [elim N0; apply own_get; congruence|reflexivity]).
  assert (Gs : dget (i_set i) f = None) by (apply (same_keys (i_get i)); [symmetry; exact K|exact G]).
  destruct c as [v|]; unfold read_reference, read_cell, resolve_cell, c_has, c_get, c_put, dmem.
  - rewrite Gs. cbn [c_data c_own fst snd]. rewrite tm_get, str_eqb_refl, G. cbn [orb]. rewrite ?Gs.
    destruct (rep v) as [w|e]; [|reflexivity]. eexists. split; [reflexivity|]. cbn [c_data c_own]. rewrite tm_get, str_eqb_refl. split; reflexivity.
  - rewrite G, D. reflexivity.
Qed.
Lemma reference_refused (rep : V -> res V) i n f st g null :
  dget (i_set i) f = Some st -> dget (i_get i) f = Some g ->
  (forall o v, snd (st o v) = Ok tt -> forall w, rep v <> Ok w) ->
  g (c_own n) = Ok null -> (forall w, rep null <> Ok w) ->
  (forall v w, rep v = Ok w -> snd (read_reference rep i n f (Some v)) <> Ok tt) /\
  snd (read_reference rep i n f None) <> Ok tt.
Proof.
  intros Es Eg H En Nn. unfold read_reference, read_cell, c_put. rewrite Es. split.
  - intros v w Ev. specialize (H (c_own n) v). destruct (st (c_own n) v) as [o' [[]|e]]; cbn [snd] in *; [|discriminate]. elim (H eq_refl w Ev).
  - unfold resolve_cell, c_has, c_get, dmem. rewrite Eg, En. cbn [orb rbind]. destruct (rep null) as [w|e]; [elim (Nn w eq_refl)|discriminate].
Qed.
End Concrete.
