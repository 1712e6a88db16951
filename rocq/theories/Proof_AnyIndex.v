(** Indexes of document files of any origin. *)
From Verif Require Import PyBase PyBaseFacts Model_Heap Model_Msgpack Model_Document Model_Codec Model_Lazy Model_Collection Model_Index
  Spec_Collection Spec_Index Spec_AnyFile Spec_AnyIndex Proof_Msgpack Proof_Collection Proof_Index Proof_Index2 Proof_AnyFile.
Local Open Scope Z_scope.

(** ** the properties of a document *)
Lemma props_md x q ref : props_in x q -> snd (md_properties (fresh (ref, x)) []) = q.
Proof.
  intros P. unfold md_properties, parse_state. cbn [fresh fst snd md_raw Nat.ltb Nat.leb]. unfold find_props, seek at 1. change (4 <? 0) with false. cbv iota. change (Z.to_nat 4) with 4%nat. cbn [rbind].
  destruct P as [e E|n r e E F|n r o r' E F]; rewrite E; cbn [rbind]; [reflexivity| |]; cbn [as_num rbind got fst md_prop md_raw];
    (destruct (unpack_eats _ _ _ E) as [z Z]; pose proof (shorter _ _ _ E) as Sh; unfold seek;
     assert (0 <= zlen (skipn 4 x) - zlen r) by (unfold zlen; lia); destruct (Z.ltb_spec (zlen (skipn 4 x) - zlen r + 4) 0); [lia|]; cbn [rbind decode_property];
     rewrite (Z.add_comm _ 4); rewrite <- (skip_past x (skipn 4 x) r z 4 ltac:(lia) eq_refl Z), F; reflexivity).
Qed.
Lemma props_one x q q' : props_in x q -> props_in x q' -> q = q'.
Proof. intros A B. rewrite <- (props_md x q (0, 0) A). exact (props_md x q' (0, 0) B). Qed.

(** ** names and properties *)
Lemma begins_spec k : forall x, begins k x = true <-> exists b, x = k ++ b.
Proof.
  induction k as [|a k IH]; intros x; cbn [begins]; [split; [exists x; reflexivity|reflexivity]|]. destruct x as [|c x].
  - split; [discriminate|]. intros [b H]. discriminate.
  - rewrite andb_true_iff, N.eqb_eq, IH. cbn [app]. split; [intros [-> [b ->]]; eauto|]. intros [b H]. split; [congruence|]. exists b. congruence.
Qed.
Lemma occurs_spec k : forall x, occurs k x = true <-> exists a b, x = a ++ k ++ b.
Proof.
  induction x as [|c x IH]; cbn [occurs]; rewrite orb_true_iff, begins_spec.
  - split; [intros [[b H]|]; [exists [], b; exact H|discriminate]|]. intros (a & b & H). left. exists b. destruct a; [exact H|discriminate].
  - rewrite IH. split; [intros [[b H]|(a & b & ->)]; [exists [], b; exact H|exists (c :: a), b; reflexivity]|].
    intros (a & b & H). destruct a as [|a0 a]; [left; eauto|right]. exists a, b. cbn [app] in H. congruence.
Qed.
Definition in_arr (l : list mobj) (p : pystr) : bool := existsb (fun e => match e with MStr x => str_eqb x p | _ => false end) l.
Lemma in_arr_spec l p : in_arr l p = true <-> In (MStr p) l.
Proof.
  unfold in_arr. rewrite existsb_exists. split.
  - intros (e & I & H). destruct e; try discriminate. apply str_eqb_eq in H. subst. exact I.
  - intros I. exists (MStr p). split; [exact I|apply str_eqb_refl].
Qed.
Lemma other_scan o (t : pystr -> bool) names ix : (forall p, in_other o p = Ok (t p)) -> index_other names o ix = if existsb t names then Err TypeError else Ok ix.
Proof. intros H. induction names as [|p names IH]; [reflexivity|]. cbn [index_other existsb]. rewrite H. cbn [rbind]. destruct (t p); [reflexivity|exact IH]. Qed.
Definition dict_of (o : mobj) : dict mobj := match o with MMap d => d | _ => [] end.
Lemma index_nothing names n : forall ix, index_doc names [] n ix = Ok ix.
Proof. induction names as [|p names IH]; intros ix; [reflexivity|]. cbn [index_doc dget]. apply IH. Qed.
Definition names_in (names : list pystr) (ix : dict vdict) : Prop := forall p, In p names -> exists d, dget ix p = Some d.
Lemma index_refused names o n ix : names_in names ix -> refused names o -> index_props names o n ix = Err TypeError.
Proof.
  intros D R. destruct R as [d k v I E C|l k I J|a k b I|o k I N1 N2 N3].
  - cbn [index_props]. apply (index_doc_bad names d n k v ix D I E). destruct C; reflexivity.
  - unfold index_props. rewrite (other_scan (MArr l) (in_arr l) names ix (fun p => eq_refl)). replace (existsb (in_arr l) names) with true; [reflexivity|]. symmetry. apply existsb_exists. exists k. split; [exact I|apply in_arr_spec, J].
  - unfold index_props. rewrite (other_scan (MStr (a ++ k ++ b)) (fun p => occurs p (a ++ k ++ b)) names ix (fun p => eq_refl)).
    replace (existsb (fun p => occurs p (a ++ k ++ b)) names) with true; [reflexivity|]. symmetry. apply existsb_exists. exists k. split; [exact I|]. apply occurs_spec. eauto.
  - destruct names as [|p names]; [contradiction|]. unfold index_props. destruct o; try reflexivity; [destruct (N3 x)|destruct (N2 l)|destruct (N1 d)]; reflexivity.
Qed.
Lemma refused_dec names o : refused names o \/ ~ refused names o.
Proof.
  assert (Oth : (forall d, o <> MMap d) -> (forall l, o <> MArr l) -> (forall x, o <> MStr x) -> refused names o \/ ~ refused names o).
  { intros A B C. destruct names as [|k names]; [right|left; apply (rf_other _ _ k); simpl; auto]. intros R. destruct R; simpl in *; contradiction. }
  destruct o as [| | | |x| |l|d]; try (apply Oth; discriminate).
  - destruct (existsb (fun p => occurs p x) names) eqn:E.
    + left. apply existsb_exists in E. destruct E as (k & I & E). apply occurs_spec in E. destruct E as (a & b & ->). apply rf_text. exact I.
    + right. intros R. inversion R as [| |a k b I X|o k I N1 N2 N3]; subst; [|destruct (N3 x); reflexivity]. enough (existsb (fun p => occurs p (a ++ k ++ b)) names = true) by congruence.
      apply existsb_exists. exists k. split; [exact I|]. apply occurs_spec. eauto.
  - destruct (existsb (in_arr l) names) eqn:E.
    + left. apply existsb_exists in E. destruct E as (k & I & E). apply (rf_list _ l k I), in_arr_spec, E.
    + right. intros R. inversion R as [|l' k I J X| |o k I N1 N2 N3]; subst; [|destruct (N2 l); reflexivity]. enough (existsb (in_arr l) names = true) by congruence.
      apply existsb_exists. exists k. split; [exact I|]. apply in_arr_spec, J.
  - destruct (existsb (fun p => match dget d p with Some v => negb (hashable v) | None => false end) names) eqn:E.
    + left. apply existsb_exists in E. destruct E as (k & I & E). destruct (dget d k) as [v|] eqn:V; [|discriminate]. apply (rf_value _ d k v I V). destruct v; try discriminate; constructor.
    + right. intros R. inversion R as [d' k v I V C X| | |o k I N1 N2 N3]; subst; [|destruct (N1 d); reflexivity].
      enough (existsb (fun p => match dget d p with Some v => negb (hashable v) | None => false end) names = true) by congruence.
      apply existsb_exists. exists k. split; [exact I|]. rewrite V. destruct C; reflexivity.
Qed.
Lemma index_accepts names prs ix o : index_ok names prs ix -> ~ refused names o -> exists ix', index_props names o (length prs) ix = Ok ix' /\ index_ok names (prs ++ [dict_of o]) ix'.
Proof.
  intros K R.
  assert (Oth : (forall d, o <> MMap d) -> index_other names o ix = Ok ix -> exists ix', index_other names o ix = Ok ix' /\ index_ok names (prs ++ [[]]) ix').
  { intros _ E. exists ix. split; [exact E|]. destruct (index_step names prs ix [] K) as (ix' & E' & K'); [discriminate|]. rewrite index_nothing in E'. assert (ix' = ix) by congruence. subst ix'. exact K'. }
  destruct o as [| | | |x| |l|d]; cbn [index_props dict_of];
    try (apply Oth; [discriminate|]; destruct names as [|k names]; [reflexivity|]; exfalso; apply R, (rf_other _ _ k); simpl; auto; discriminate).
  - apply Oth; [discriminate|]. rewrite (other_scan (MStr x) (fun p => occurs p x) names ix (fun p => eq_refl)). destruct (existsb (fun p => occurs p x) names) eqn:E; [|reflexivity]. exfalso. apply R.
    apply existsb_exists in E. destruct E as (k & I & E). apply occurs_spec in E. destruct E as (a & b & ->). apply rf_text. exact I.
  - apply Oth; [discriminate|]. rewrite (other_scan (MArr l) (in_arr l) names ix (fun p => eq_refl)). destruct (existsb (in_arr l) names) eqn:E; [|reflexivity]. exfalso. apply R.
    apply existsb_exists in E. destruct E as (k & I & E). apply (rf_list _ l k I), in_arr_spec, E.
  - apply (index_step names prs ix d K). intros p v I V. destruct (hashable v) eqn:Hv; [reflexivity|]. exfalso. apply R, (rf_value _ d p v I V). destruct v; try discriminate; constructor.
Qed.
Lemma index_names names prs ix : index_ok names prs ix -> names_in names ix.
Proof. intros K p I. specialize (K p). destruct (dget ix p); [eauto|contradiction]. Qed.

(** ** the documents of all blocks *)
Definition gleft (r : reader) (cur : option block) (ds : list ((Z * Z) * list N)) (e : ending) : Prop :=
  exists l e0, blocks_of (r_codec r) (place r) (rest_of r) l e0 /\
  match cur with
  | None => docs_in l e0 ds e
  | Some b => exists ds1 e1, in_block (b_pos b) (block_tell b) (u_rest (b_unp b)) ds1 e1 /\
      match e1 with Finished => exists ds2, docs_in l e0 ds2 e /\ ds = ds1 ++ ds2 | Raised x => ds = ds1 /\ e = Raised x end
  end.
Definition gstep (q : reader * option block * res (option mdoc)) ds e : Prop :=
  match ds with
  | [] => snd q = last_answer e
  | d :: ds' => snd q = Ok (Some (fresh d)) /\ gleft (fst (fst q)) (snd (fst q)) ds' e
  end.
Lemma gen_block : forall l e0, (forall f r ds e, (2 * length l < f)%nat -> blocks_of (r_codec r) (place r) (rest_of r) l e0 -> docs_in l e0 ds e -> gstep (gen_next f r None) ds e) ->
  forall f r b ds1 e1 ds e, (2 * length l < f)%nat -> blocks_of (r_codec r) (place r) (rest_of r) l e0 -> in_block (b_pos b) (block_tell b) (u_rest (b_unp b)) ds1 e1 ->
  match e1 with Finished => exists ds2, docs_in l e0 ds2 e /\ ds = ds1 ++ ds2 | Raised x => ds = ds1 /\ e = Raised x end -> gstep (gen_next (S f) r (Some b)) ds e.
Proof.
  intros l e0 IH f r b ds1 e1 ds e L B I K. cbn [gen_next]. unfold block_next. destruct (block_step _ _ _ _ _ b I eq_refl eq_refl eq_refl) as (b1 & Db & Pb & S1). destruct ds1 as [|d ds1].
  - destruct e1 as [|x].
    + rewrite S1. destruct K as (ds2 & J & ->). cbn [app]. exact (IH f r ds2 e L B J).
    + destruct K as [-> ->]. destruct S1 as [S1|(-> & o & S1 & O1)]; rewrite S1; cbn [gstep snd]; [reflexivity|]. rewrite O1. reflexivity.
  - destruct S1 as (Fd & S1 & O1 & I1). rewrite S1, O1. cbn [rbind].
    assert (X : fresh ((b_pos b1, block_tell b), snd d) = fresh d) by (rewrite Pb, <- Fd, <- surjective_pairing; reflexivity). rewrite X.
    rewrite <- Pb in I1. destruct e1 as [|x].
    + destruct K as (ds2 & J & ->). cbn [app gstep fst snd]. split; [reflexivity|]. exists l, e0. split; [exact B|]. exists ds1, Finished. split; [exact I1|]. eauto.
    + destruct K as [-> ->]. cbn [gstep fst snd]. split; [reflexivity|]. exists l, e0. split; [exact B|]. exists ds1, (Raised x). split; [exact I1|]. auto.
Qed.
Lemma gen_none_any e0 : forall l f r ds e, (2 * length l < f)%nat -> blocks_of (r_codec r) (place r) (rest_of r) l e0 -> docs_in l e0 ds e -> gstep (gen_next f r None) ds e.
Proof.
  induction l as [|[p y] l IH]; intros f r ds e L B D; (destruct f as [|f]; [lia|]); cbn [gen_next]; destruct (readblock_any r _ _ B) as (r1 & F1 & C1 & K1 & L1 & S).
  - inversion D; subst. rewrite S. destruct e; reflexivity.
  - destruct S as (Ep & S & B1). rewrite S. destruct f as [|f]; [simpl in L; lia|]. rewrite <- C1 in B1.
    inversion D as [e'|p' y' l' e' ds1 ds2 e'' I J|p' y' l' e' ds1 x I]; subst.
    + apply (gen_block l e0 IH f r1 _ ds1 Finished); [simpl in L; lia|exact B1|exact I|eauto].
    + apply (gen_block l e0 IH f r1 _ ds (Raised x)); [simpl in L; lia|exact B1|exact I|auto].
Qed.
Lemma gen_any r cur ds e : gleft r cur ds e -> gstep (gen_next (S (S (length (u_rest (r_unp r)) + length (u_rest (r_unp r))))) r cur) ds e.
Proof.
  intros (l & e0 & B & K). pose proof (blocks_short _ _ _ _ _ B) as Sh. unfold rest_of in Sh. destruct cur as [b|].
  - destruct K as (ds1 & e1 & I & K). apply (gen_block l e0 (gen_none_any e0 l) _ r b ds1 e1 ds e); [lia|exact B|exact I|exact K].
  - apply (gen_none_any e0 l); [lia|exact B|exact K].
Qed.

(** ** building *)
Lemma build_any names ds e q : builds names ds e q -> forall f r cur prs ix, gleft r cur ds e -> (length ds < f)%nat -> index_ok names prs (fi_props ix) -> length (fi_refs ix) = length prs ->
  match q with
  | Err x => build_loop f names r cur ix = Err x
  | Ok os => exists ix', build_loop f names r cur ix = Ok ix' /\ index_ok names (prs ++ map dict_of os) (fi_props ix') /\ fi_refs ix' = fi_refs ix ++ map fst ds
  end.
Proof.
  assert (One : forall d f r cur prs ix ds e, gleft r cur (d :: ds) e -> index_ok names prs (fi_props ix) -> length (fi_refs ix) = length prs ->
    exists r1 cur1, gleft r1 cur1 ds e /\ build_loop (S f) names r cur ix =
      (let* o := snd (md_properties (fresh d) []) in let* p := index_props names o (length prs) (fi_props ix) in build_loop f names r1 cur1 (mkFI p (fi_refs ix ++ [fst d])))).
  { intros d f r cur prs ix ds0 e0 G K Lr. pose proof (gen_any r cur _ _ G) as S. cbn [build_loop]. destruct (gen_next _ r cur) as [[r1 cur1] z]. cbn [gstep fst snd] in S. destruct S as [-> G1].
    exists r1, cur1. split; [exact G1|]. cbn [fresh md_ref rbind]. rewrite Lr. reflexivity. }
  induction 1 as [|x|[ref y] ds e x P|[ref y] ds e o P R|[ref y] ds e o x P R H IH|[ref y] ds e o os P R H IH]; intros f r cur prs ix G L K Lr; (destruct f as [|f]; [simpl in L; lia|]);
    try (destruct (One _ f r cur prs ix ds e G K Lr) as (r1 & cur1 & G1 & ->); cbn [snd] in P; rewrite (props_md _ _ ref P); cbn [rbind]).
  - pose proof (gen_any r cur _ _ G) as S. cbn [build_loop]. destruct (gen_next _ r cur) as [[r1 cur1] z]. cbn [gstep snd last_answer] in S. subst z. exists ix. split; [reflexivity|]. cbn [map]. rewrite !app_nil_r. auto.
  - pose proof (gen_any r cur _ _ G) as S. cbn [build_loop]. destruct (gen_next _ r cur) as [[r1 cur1] z]. cbn [gstep snd last_answer] in S. subst z. reflexivity.
  - reflexivity.
  - rewrite (index_refused names o _ _ (index_names _ _ _ K) R). reflexivity.
  - destruct (index_accepts names prs (fi_props ix) o K R) as (ix' & -> & K'). cbn [rbind].
    apply (IH f r1 cur1 (prs ++ [dict_of o]) (mkFI ix' (fi_refs ix ++ [ref])) G1); [simpl in L; lia|exact K'|]. cbn [fi_refs]. rewrite !app_length, Lr. reflexivity.
  - destruct (index_accepts names prs (fi_props ix) o K R) as (ix' & -> & K'). cbn [rbind].
    destruct (IH f r1 cur1 (prs ++ [dict_of o]) (mkFI ix' (fi_refs ix ++ [ref])) G1) as (ix2 & E2 & K2 & R2); [simpl in L; lia|exact K'|cbn [fi_refs]; rewrite !app_length, Lr; reflexivity|].
    exists ix2. split; [exact E2|]. cbn [map fst fi_refs] in *. rewrite <- app_assoc in K2, R2. auto.
Qed.
Lemma builds_length names ds e os : builds names ds e (Ok os) -> length os = length ds /\ e = Finished.
Proof. remember (Ok os) as q eqn:Q. intros B. revert os Q. induction B; intros os0 Q; try discriminate; apply Ok_inj in Q; subst os0; [auto|]. destruct (IHB os eq_refl) as [Lo ->]. cbn [length]. split; [congruence|reflexivity]. Qed.
Lemma builds_one names ds e q : builds names ds e q -> forall q', builds names ds e q' -> q = q'.
Proof.
  induction 1 as [|x|d ds e x P|d ds e o P R|d ds e o x P R H IH|d ds e o os P R H IH]; intros q' B; inversion B; subst; try reflexivity;
    repeat match goal with A : props_in ?x ?q1, A' : props_in ?x ?q2 |- _ => lazymatch goal with Z : q1 = q2 |- _ => fail | _ => pose proof (props_one x q1 q2 A A') end end; try congruence;
    try (match goal with E : Ok ?a = Ok ?b |- _ => assert (a = b) by congruence; subst end; contradiction);
    match goal with E : builds names ds e ?q2 |- _ => try pose proof (IH _ E) end; congruence.
Qed.
Lemma builds_total names ds e : (forall d, In d ds -> exists q, props_in (snd d) q) -> exists q, builds names ds e q.
Proof.
  induction ds as [|d ds IH]; intros H; [destruct e; eexists; constructor|]. destruct (H d (or_introl eq_refl)) as [[o|x] P]; [|eexists; eapply bl_unread; exact P].
  destruct (refused_dec names o) as [R|R]; [eexists; eapply bl_refused; eauto|]. destruct IH as [[os|x] B]; [intros d' I; apply H; right; exact I| |].
  - eexists. eapply bl_doc; eauto.
  - eexists. eapply bl_later; eauto.
Qed.

(** ** finding *)
Lemma satisfies_sel names conds : exists sel, forall o, sel o = true <-> satisfies names conds o.
Proof.
  set (one := fun (props : dict mobj) (kv : pystr * mobj) => existsb (str_eqb (fst kv)) names && match dget props (fst kv) with Some w => key_eqb (snd kv) w | None => false end).
  exists (fun o => match o with MMap props => match conds with [] => false | _ => forallb (one props) conds end | _ => false end).
  assert (ONE : forall props k v, one props (k, v) = true <-> In k names /\ exists w, dget props k = Some w /\ py_equal v w).
  { intros props k v. unfold one. cbn [fst snd]. rewrite andb_true_iff, existsb_exists. split.
    - intros [(q & I & E) F]. apply str_eqb_eq in E. subst q. split; [exact I|]. destruct (dget props k) as [w|]; [|discriminate]. exists w. split; [reflexivity|]. apply key_eqb_spec, F.
    - intros [I (w & E & F)]. split; [exists k; split; [exact I|apply str_eqb_refl]|]. rewrite E. apply key_eqb_spec, F. }
  intros o. unfold satisfies. destruct o as [| | | | | | |props]; try (split; [discriminate|]; intros [NE H]; exfalso; destruct conds as [|[k v] cs]; [congruence|];
    destruct (H k v (or_introl eq_refl)) as [_ (ps & w & C & _)]; discriminate).
  destruct conds as [|c0 cs]; [split; [discriminate|tauto]|]. rewrite forallb_forall. split.
  - intros H. split; [discriminate|]. intros k v I. apply H, ONE in I. destruct I as [I (w & J & E)]. split; [exact I|]. exists props, w. auto.
  - intros [_ H] [k v] I. apply ONE. destruct (H k v I) as [A (ps & w & E & J & Q)]. assert (ps = props) by congruence. subst ps. eauto.
Qed.
Lemma chosen_ids {A} (sel : mobj -> bool) (os : list mobj) (l : list A) : length os = length l -> forall s : nat -> bool,
  (forall i d, nth_error os i = Some d -> s i = sel d) -> map (nth_error l) (filter s (seq 0 (length l))) = map Some (chosen sel os l).
Proof.
  intros L s Hs. unfold chosen.
  assert (G : forall ds' l' pre, length ds' = length l' -> l = pre ++ l' -> (forall i d, nth_error ds' i = Some d -> s (length pre + i)%nat = sel d) ->
    map (nth_error l) (filter s (seq (length pre) (length l'))) = map Some (map snd (filter (fun p => sel (fst p)) (combine ds' l')))).
  { induction ds' as [|d ds' IH]; intros [|x l'] pre Ll E H; try discriminate; [reflexivity|]. cbn [combine seq length filter fst].
    rewrite <- (H 0%nat d eq_refl), Nat.add_0_r.
    specialize (IH l' (pre ++ [x])). rewrite app_length in IH. cbn [length] in IH. rewrite Nat.add_1_r in IH.
    assert (IH' : map (nth_error l) (filter s (seq (S (length pre)) (length l'))) = map Some (map snd (filter (fun p => sel (fst p)) (combine ds' l')))).
    { apply IH; [cbn in Ll; lia|rewrite <- app_assoc; exact E|]. intros i d' N. replace (S (length pre) + i)%nat with (length pre + S i)%nat by lia. apply H. exact N. }
    destruct (s (length pre)); cbn [map snd]; rewrite IH'; [|reflexivity]. rewrite E, nth_error_app2, Nat.sub_diag by lia. reflexivity. }
  apply (G os l []); auto.
Qed.
Section Fetching.
Context (f : list N) (dec : list N -> res (list N)).
Context {A : Type} (take : heap -> block -> block * hres A) (act : heap -> (Z * Z) * list N -> hres A).
Hypothesis TAKE : forall h p off y bs x r, unpack1 bs = Ok (MBin x, r) -> firstn 4 x = s "DM_1" ->
  exists b2, take h (mkB y p off (u_open bs)) = (b2, act h ((p, off), x)) /\ b_data b2 = y /\ b_pos b2 = p.
(** d is a document of a block of the file *)
Definition filed (d : (Z * Z) * list N) : Prop := exists p y dsb eb, held f dec p y /\ in_block p 0 y dsb eb /\ In d dsb.
Definition last_held (last : option block) : Prop := forall b, last = Some b -> held f dec (b_pos b) (b_data b).
Lemma block_found p y off bs ds e : in_block p off bs ds e -> forall d, In d ds -> (exists pre, y = pre ++ bs /\ zlen pre = off) -> 
  exists bs' x r, d = ((p, snd (fst d)), x) /\ seek y (snd (fst d)) = Ok bs' /\ unpack1 bs' = Ok (MBin x, r) /\ firstn 4 x = s "DM_1".
Proof.
  induction 1 as [off bs O|off bs e B|off bs o r E N NB|off bs x r E M|off bs x r ds e E M J IH]; intros d I (pre & Y & L); try contradiction. destruct I as [<-|I].
  - exists bs, x, r. cbn [fst snd]. rewrite (seek_app y pre bs off Y (eq_sym L)). auto.
  - apply IH; [exact I|]. destruct (unpack_eats _ _ _ E) as [q ->]. exists (pre ++ q). rewrite <- app_assoc. split; [exact Y|]. rewrite !zlen_app. lia.
Qed.
Definition io {B} (r : hres B) : hres B := match r with (h1, Ok y) => (h1, Ok y) | (h1, Err _) => (h1, Err IOError) end.
Lemma fetch_any h r last d : good f dec r -> last_held last -> filed d ->
  exists r1 last1, Model_Index.fetch take h r last (fst d) = (r1, last1, io (act h d)) /\ good f dec r1 /\ last_held last1.
Proof.
  intros G La (p & y & dsb & eb & Hd & I & D). pose proof (in_block_place _ _ _ _ _ _ I D) as Ep.
  destruct (block_found p y 0 y dsb eb I d D (ex_intro _ [] (conj eq_refl eq_refl))) as (bs' & x & q & Ed & Sk & Un & Mg).
  assert (USE : forall r1 b, good f dec r1 -> b_pos b = p -> b_data b = y ->
    exists last1, match block_seek b (snd (fst d)) with
      | (b1, Err e) => (r1, Some b1, (h, Err IOError))
      | (b1, Ok _) => match take h b1 with
                      | (b2, (h1, Ok y)) => (r1, Some b2, (h1, Ok y))
                      | (b2, (h1, Err _)) => (r1, Some b2, (h1, Err IOError))
                      end
      end = (r1, last1, io (act h d)) /\ last_held last1).
  { intros r1 b G1 P Y. unfold block_seek. rewrite Y, Sk, P. destruct (TAKE h p (snd (fst d)) y bs' x q Un Mg) as (b2 & E2 & Y2 & P2). rewrite E2, <- Ed. exists (Some b2).
    assert (last_held (Some b2)) by (intros b' Eb; injection Eb as <-; rewrite P2, Y2; exact Hd).
    destruct (act h d) as [h1 [z|e]]; split; auto; reflexivity. }
  unfold Model_Index.fetch.
  match goal with |- exists r1 last1, match last with Some b => if _ then _ else ?again | None => _ end = _ /\ _ => assert (AGAIN : exists r1 last1, again = (r1, last1, io (act h d)) /\ good f dec r1 /\ last_held last1) end.
  { rewrite Ep. destruct (reader_seek r p) as [r2 z] eqn:E. destruct (good_seek _ _ _ _ _ _ G E) as (G2 & K2 & Hp). destruct (Hp (proj1 Hd)) as [-> Pl].
    assert (exists r3, readblock r2 = (r3, Ok (Some (block_open p y)))) as [r3 E3].
    { destruct Hd as (P0 & x' & q' & E1 & D1). unfold readblock. destruct r2 as [rf rr [ur ut] rc rp rb rl]. unfold place in Pl. cbn [r_unp r_read u_tell] in Pl. pose proof (gd_rest _ _ _ G2) as Re. unfold rest_of, place in Re. cbn [r_unp u_rest u_tell r_read] in Re. rewrite Pl in Re.
      cbn [r_unp r_read u_tell r_codec r_per r_block r_file]. rewrite (u_value ur ut (MBin x') q') by (discriminate || (rewrite Re; exact E1)). cbn [rbind as_bytes].
      pose proof (gd_codec _ _ _ G2) as Co. cbn [r_codec] in Co. rewrite Co, D1, Pl. cbn [rbind]. eexists. reflexivity. }
    rewrite E3. destruct (good_readblock _ _ _ _ _ G2 E3) as (G3 & _ & _). destruct (USE r3 (block_open p y) G3 eq_refl eq_refl) as (l1 & -> & Hl). eauto. }
  destruct last as [b|]; [|exact AGAIN]. destruct (Z.eqb_spec (b_pos b) (fst (fst d))) as [Eb|Eb]; [|exact AGAIN].
  pose proof (La b eq_refl) as Hb. rewrite Eb, Ep in Hb. destruct (USE r b G ltac:(congruence) (held_same _ _ _ _ _ Hb Hd)) as (l1 & -> & Hl). eauto.
Qed.
Lemma fetch_all_any ix docs : fi_refs ix = map fst docs -> Forall filed docs -> forall ids h r last xs, good f dec r -> last_held last -> map (nth_error docs) ids = map Some xs ->
  fetch_all take ix h r last ids = acts act h xs.
Proof.
  intros Rx F. induction ids as [|i ids IH]; intros h r last xs G La E; (destruct xs as [|x xs]; [try discriminate; try reflexivity|try discriminate]).
  cbn [map] in E. assert (E1 : nth_error docs i = Some x) by congruence. assert (E2 : map (nth_error docs) ids = map Some xs) by congruence.
  cbn [fetch_all acts]. rewrite Rx, (map_nth_error fst _ _ E1). destruct (fetch_any h r last x G La (proj1 (Forall_forall _ _) F x (nth_error_In _ _ E1))) as (r1 & l1 & Q & G1 & L1). rewrite Q. unfold io.
  destruct (act h x) as [h1 [y|e]]; [|reflexivity]. rewrite (IH h1 r1 l1 xs G1 L1 E2). reflexivity.
Qed.
End Fetching.
Lemma take_lazy_any h p off y bs x r : unpack1 bs = Ok (MBin x, r) -> firstn 4 x = s "DM_1" ->
  exists b2, take_lazy h (mkB y p off (u_open bs)) = (b2, (h, Ok (fresh ((p, off), x)))) /\ b_data b2 = y /\ b_pos b2 = p.
Proof.
  intros E M. unfold take_lazy, block_next, block_tell, block_raw, u_open. cbn [b_unp u_tell b_read b_data b_pos]. rewrite (u_value bs 0 (MBin x) r E ltac:(discriminate)). cbn [b_pos].
  rewrite (open_fresh x _ M). cbn [rbind]. eexists. split; [reflexivity|]. auto.
Qed.
Lemma take_doc_any h p off y bs x r : unpack1 bs = Ok (MBin x, r) -> firstn 4 x = s "DM_1" ->
  exists b2, take_doc h (mkB y p off (u_open bs)) = (b2, msgpack_decode h (snd ((p, off), x))) /\ b_data b2 = y /\ b_pos b2 = p.
Proof. intros E M. unfold take_doc, u_next1, u_open. cbn [b_unp u_rest]. rewrite E. cbn [rbind as_bytes snd b_data b_pos b_read]. eexists. split; [reflexivity|]. auto. Qed.

(** ** all together *)
Lemma index_any g f r p body l e0 ds e names q fuel : reader_open g f = Ok r -> opened g f (r_codec r) p body -> blocks_of (r_codec r) p body l e0 -> docs_in l e0 ds e ->
  builds names ds e q -> (length ds < fuel)%nat ->
  match q with
  | Err x => index_build fuel g f names = Err x
  | Ok os => exists ix, index_build fuel g f names = Ok ix /\ forall conds, (forall k v, In (k, v) conds -> ~ container v) ->
      exists sel, (forall o, sel o = true <-> satisfies names conds o) /\
      (forall h, index_search take_lazy g h f ix conds = (h, map fresh (chosen sel os ds), Ok tt)) /\
      (forall h, index_search take_doc g h f ix conds = decode_each h (map snd (chosen sel os ds))) /\
      (forall A (take : heap -> block -> block * hres A) h f' x, reader_open g f' = Err x -> chosen sel os ds <> [] ->
         index_search take g h f' ix conds = (h, [], Err (match x with StopIteration => RuntimeError | x => x end)))
  end.
Proof.
  intros O P B D Bl L. destruct (open_any g f r O) as (p' & body' & P' & Fi & Ep & Eb & K & P0 & Sk).
  assert (p' = p /\ body' = body) as [-> ->] by exact (opened_same _ _ _ _ _ _ _ P' P).
  assert (G : gleft r None ds e) by (exists l, e0; rewrite Ep, Eb; auto).
  pose proof (build_any names ds e q Bl fuel r None [] (mkFI (fold_left (fun d p => dset d p []) names []) []) G L (index_start names) eq_refl) as R.
  assert (IB : index_build fuel g f names = build_loop fuel names r None (mkFI (fold_left (fun d p => dset d p []) names []) [])) by (unfold index_build; rewrite O; reflexivity).
  rewrite IB. destruct q as [os|x]; [|exact R]. destruct R as (ix & E & OKx & Rx). cbn [app fi_refs] in OKx, Rx. exists ix. split; [exact E|]. intros conds Hc.
  destruct (satisfies_sel names conds) as (sel & Se). exists sel. split; [exact Se|]. destruct (builds_length _ _ _ _ Bl) as [Lo _].
  set (s := fun i => match nth_error os i with Some o => sel o | None => false end).
  assert (Fo : found ix conds = Ok (filter s (seq 0 (length ds)))).
  { rewrite <- Lo, <- (map_length dict_of os). apply (found_spec names (map dict_of os) ix conds s OKx).
    - intros k v I. apply hashable_container, (Hc k v I).
    - intros i Li. rewrite map_length in Li. unfold s. destruct (nth_error os i) as [o|] eqn:No; [|apply nth_error_None in No; lia]. rewrite Se. unfold satisfies, hit.
      split; intros [NE H]; (split; [exact NE|]).
      + exists (dict_of o). split; [exact (map_nth_error dict_of _ _ No)|]. intros k v I. destruct (H k v I) as [X (d & w & -> & Q1 & Q2)]. split; [exact X|]. exists w. split; [exact Q1|apply key_eqb_spec, Q2].
      + destruct H as (ps & Np & H). rewrite (map_nth_error dict_of _ _ No) in Np. assert (ps = dict_of o) by congruence. subst ps. intros k v I. destruct (H k v I) as [X (w & Q1 & Q2)]. split; [exact X|].
        destruct o as [| | | | | | |d]; try discriminate. exists d, w. split; [reflexivity|]. split; [exact Q1|]. apply key_eqb_spec, Q2. }
  assert (Pk : map (nth_error ds) (filter s (seq 0 (length ds))) = map Some (chosen sel os ds)) by (apply chosen_ids; [exact Lo|]; intros i o No; unfold s; rewrite No; reflexivity).
  assert (Gd : good f (r_codec r) r). { constructor; try assumption; try reflexivity; [lia|rewrite Ep, Eb; exact Sk|rewrite K; discriminate]. }
  assert (Fd : Forall (filed f (r_codec r)) ds).
  { apply Forall_forall. intros d Id. destruct (docs_where _ _ _ _ D d Id) as (z & y & dsb & eb & Q & Ib & Jd). exists z, y, dsb, eb. split; [exact (blocks_held f _ p body l e0 B P0 Sk z y Q)|auto]. }
  assert (SEARCH : forall A (take : heap -> block -> block * hres A) act, (forall h p off y bs x r, unpack1 bs = Ok (MBin x, r) -> firstn 4 x = PyBase.s "DM_1" ->
      exists b2, take h (mkB y p off (u_open bs)) = (b2, act h ((p, off), x)) /\ b_data b2 = y /\ b_pos b2 = p) ->
    forall h0, index_search take g h0 f ix conds = acts act h0 (chosen sel os ds)).
  { intros A take act T h0. unfold index_search. rewrite Fo, O.
    assert (La : last_held f (r_codec r) None) by discriminate.
    pose proof (fetch_all_any f (r_codec r) take act T ix ds Rx Fd (filter s (seq 0 (length ds))) h0 r None _ Gd La Pk) as Q. destruct (filter s (seq 0 (length ds))); [|exact Q].
    rewrite <- Q. reflexivity. }
  split; [|split]; [intros h|intros h|].
  - rewrite (SEARCH mdoc take_lazy (fun h x => (h, Ok (fresh x))) take_lazy_any). generalize (chosen sel os ds). intros l0. induction l0 as [|x l0 IH]; [reflexivity|]. cbn [acts map]. rewrite IH. reflexivity.
  - rewrite (SEARCH doc take_doc (fun h x => msgpack_decode h (snd x)) take_doc_any). generalize (chosen sel os ds). intros l0. revert h. induction l0 as [|x l0 IH]; intros h; [reflexivity|]. cbn [acts map decode_each].
    destruct (msgpack_decode h (snd x)) as [h1 [d|z]]; [|reflexivity]. rewrite IH. reflexivity.
  - intros A take h f' x Ex Ne. unfold index_search. rewrite Fo, Ex. destruct (filter s (seq 0 (length ds))); [|reflexivity]. destruct (chosen sel os ds); [congruence|discriminate].
Qed.
Lemma index_unopened g f names fuel x : reader_open g f = Err x -> index_build fuel g f names = Err x.
Proof. intros E. unfold index_build. rewrite E. reflexivity. Qed.
Lemma number_missing {A} (take : heap -> block -> block * hres A) g h f r k v i refs : reader_open g f = Ok r -> py_equal v v -> (length refs <= i)%nat ->
  index_search take g h f (mkFI [(k, [(v, [i])])] refs) [(k, v)] = (h, [], Err IndexError).
Proof.
  intros O V L. unfold index_search, found, cond_hits. apply key_eqb_spec in V. cbn [fst snd fi_props dget]. rewrite (proj1 (key_hashable _ _ V)), str_eqb_refl. cbn [vget]. rewrite V. cbn [rbind mapM fold_left nodup].
  destruct (in_dec Nat.eq_dec i []) as [[]|_]. change (sorted_ids [i]) with [i]. rewrite O. cbn [fetch_all fi_refs]. rewrite (proj2 (nth_error_None refs i) L). reflexivity.
Qed.
(** ** several files *)
Lemma search_all_app {A} (take : heap -> block -> block * hres A) g conds : forall fs gs h,
  search_all take g h (fs ++ gs) conds =
  match search_all take g h fs conds with
  | (h1, l, Err e) => (h1, l, Err e)
  | (h1, l, Ok _) => let '(h2, l', e) := search_all take g h1 gs conds in (h2, l ++ l', e)
  end.
Proof.
  induction fs as [|[f ix] fs IH]; intros gs h; cbn [app search_all]; [destruct (search_all take g h gs conds) as [[h2 l'] e]; reflexivity|].
  destruct (index_search take g h f ix conds) as [[h1 l1] [u|e]]; [|reflexivity]. rewrite IH. destruct (search_all take g h1 fs conds) as [[h2 l2] [u2|e2]]; [|reflexivity].
  destruct (search_all take g h2 gs conds) as [[h3 l3] e3]. rewrite app_assoc. reflexivity.
Qed.
Lemma search_all_one {A} (take : heap -> block -> block * hres A) g conds f ix h : search_all take g h [(f, ix)] conds = index_search take g h f ix conds.
Proof. cbn [search_all]. destruct (index_search take g h f ix conds) as [[h1 l1] [[]|e]]; [|reflexivity]. rewrite app_nil_r. reflexivity. Qed.
