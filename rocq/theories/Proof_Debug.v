(** MsgpackCodec.debug. *)
From Verif Require Import PyBase PyBaseFacts Model_Text Model_Heap Model_Layer Model_Types Model_Msgpack Model_Document Model_Codec Model_Debug
  Spec_Msgpack Spec_Document Spec_Codec Spec_Cut Spec_Debug Proof_Msgpack Proof_Layout Proof_Codec2 Proof_Cut Proof_Spell3.
Local Open Scope Z_scope.

(** ** on a list of objects *)
Fixpoint run_list (p : prog) (os : list mobj) : option (list line) :=
  match p with
  | Done => Some []
  | Raise e => None
  | Print l k => match run_list k os with Some o => Some (l :: o) | None => None end
  | Next k => match os with [] => None | o :: r => run_list (k o) r end
  end.
Fixpoint follows (bs : list N) (os : list mobj) : Prop :=
  match os with [] => True | o :: r => exists bs', unpack1 bs = Ok (o, bs') /\ follows bs' r end.
Lemma run_follows p : forall bs os out, follows bs os -> run_list p os = Some out -> run p bs = (out, Ok tt).
Proof.
  induction p as [|e|l k IH|k IH]; intros bs os out F R; cbn [run run_list] in *.
  - injection R as <-. reflexivity.
  - discriminate.
  - destruct (run_list k os) as [o|] eqn:E; [|discriminate]. injection R as <-. rewrite (IH _ _ _ F E). reflexivity.
  - destruct os as [|o r]; [discriminate|]. cbn [follows] in F. destruct F as (bs' & -> & F). exact (IH o _ _ _ F R).
Qed.
Lemma follows_pack o os p rest : python_value o -> pack o = Ok p -> follows rest os -> follows (p ++ rest) (o :: os).
Proof. intros V P F. cbn [follows]. exists rest. split; [apply unpack1_pack; assumption|exact F]. Qed.
Lemma follows_all os1 : forall os p rest, Forall python_value os1 -> pack_all os1 = Ok p -> follows rest os -> follows (p ++ rest) (os1 ++ os).
Proof.
  induction os1 as [|o os1 IH]; intros os p rest V P F.
  - apply Ok_inj in P. subst p. exact F.
  - apply pack_all_cons in P. destruct P as (p1 & p2 & P1 & P2 & ->). inversion V; subst. rewrite <- app_assoc. cbn [app]. apply follows_pack; [assumption..|]. apply IH; assumption.
Qed.

(** ** the lines of a written document *)
Lemma fields_run fs : forall acc k os out, (run_list (k (acc ++ map (fun f => MStr (ef_name f)) fs)) os = Some out) ->
  run_list (debug_fields (length fs) acc k) (flat_map field_objs fs ++ os) = Some (map field_shown fs ++ out).
Proof.
  induction fs as [|f fs IH]; intros acc k os out H.
  - cbn [map app length debug_fields flat_map] in *. rewrite app_nil_r in H. exact H.
  - cbn [length debug_fields flat_map map]. unfold field_objs at 1. cbn [map] in H.
    destruct (ef_args f) as [a|] eqn:A; cbn [run_list app truthy]; (rewrite (IH (acc ++ [MStr (ef_name f)]) k os out); [cbn [app]; f_equal; f_equal; unfold field_shown; rewrite A; reflexivity|]); rewrite <- app_assoc; exact H.
Qed.
Definition names (f : list efield) : list mobj := map (fun f => MStr (ef_name f)) f.
Lemma schema_run ls : forall sch k os out, (forall sch', (forall x, dget sch' x = match find (fun l => str_eqb (el_name l) x) (rev ls) with Some l => Some (names (el_fields l)) | None => dget sch x end) -> run_list (k sch') os = Some out) ->
  run_list (debug_schema (map (fun l => MStr (el_name l)) ls) sch k) (schema_objs ls ++ os) = Some (flat_map schema_shown ls ++ out).
Proof.
  induction ls as [|l ls IH]; intros sch k os out H.
  - cbn [map debug_schema schema_objs flat_map app]. apply H. intros x. reflexivity.
  - cbn [map debug_schema schema_objs flat_map run_list app]. unfold schema_shown at 1. cbn [app]. rewrite <- !app_assoc. unfold zlen. rewrite Nat2Z.id.
    rewrite (fields_run (el_fields l) [] _ _ (flat_map schema_shown ls ++ out)); [reflexivity|]. cbn [app].
    change (flat_map (fun l0 => MInt (zlen (el_fields l0)) :: flat_map field_objs (el_fields l0)) ls) with (schema_objs ls). apply IH. intros sch' E. apply H. intros x. rewrite E. cbn [rev].
    assert (FA : forall (f : elayer -> bool) a b, find f (a ++ b) = match find f a with Some y => Some y | None => find f b end). { intros f a b. induction a as [|y a IHa]; [reflexivity|]. cbn [app find]. destruct (f y); [reflexivity|exact IHa]. }
    rewrite FA. destruct (find (fun l0 => str_eqb (el_name l0) x) (rev ls)) as [y|]; [reflexivity|]. cbn [find]. destruct (str_eqb (el_name l) x) eqn:Q.
    + apply str_eqb_eq in Q. subst x. rewrite dget_dset_same. reflexivity.
    + rewrite dget_dset_other; [reflexivity|]. intros ->. rewrite str_eqb_refl in Q. discriminate.
Qed.
Lemma columns_run fs : forall k os out, run_list k os = Some out -> run_list (debug_columns (names fs) k) (flat_map (fun f => [MBool false; MArr (ef_col f)]) fs ++ os) = Some (flat_map column_shown fs ++ out).
Proof. induction fs as [|f fs IH]; intros k os out H; [exact H|]. change (names (f :: fs)) with (MStr (ef_name f) :: names fs). cbn [debug_columns flat_map app run_list]. rewrite (IH k os out H). reflexivity. Qed.
Lemma layers_run sch ls : (forall l, In l ls -> dget sch (el_name l) = Some (names (el_fields l))) -> forall ns, length ns = length ls ->
  run_list (debug_layers (map (fun l => MStr (el_name l)) ls) sch) (flat_map (fun ln => MInt (snd ln) :: layer_objs (fst ln)) (combine ls ns)) = Some (flat_map layer_shown (combine ls ns)).
Proof.
  induction ls as [|l ls IH]; intros D ns L; [reflexivity|]. destruct ns as [|n ns]; [discriminate|]. cbn [map debug_layers combine flat_map fst snd]. unfold layer_objs at 1. cbn [run_list app print_number].
  rewrite (D l (or_introl eq_refl)). rewrite (columns_run (el_fields l) _ _ (flat_map layer_shown (combine ls ns))); [reflexivity|]. apply IH; [|cbn in L; lia]. intros y Hy. apply D. right. exact Hy.
Qed.
Lemma find_last ls l : NoDup (map el_name ls) -> In l ls -> find (fun y => str_eqb (el_name y) (el_name l)) (rev ls) = Some l.
Proof.
  intros ND I. assert (ND' : NoDup (map el_name (rev ls))) by (rewrite map_rev; apply NoDup_rev; exact ND). apply in_rev in I. revert ND' I. generalize (rev ls). clear. intros q. induction q as [|y q IH]; intros ND I; [destruct I|].
  cbn [find]. destruct (str_eqb (el_name y) (el_name l)) eqn:Q.
  - apply str_eqb_eq in Q. destruct I as [->|I]; [reflexivity|]. cbn in ND. inversion ND as [|? ? A _]; subst. destruct A. rewrite Q. apply in_map. exact I.
  - destruct I as [->|I]; [rewrite str_eqb_refl in Q; discriminate|]. cbn in ND. inversion ND; subst. apply IH; assumption.
Qed.
Lemma texts_run ts : forall k os out, run_list k os = Some out -> run_list (debug_texts (map (fun kt => (fst kt, MArr (map MStr (snd kt)))) ts) k) os = Some (map text_shown ts ++ out).
Proof. induction ts as [|t ts IH]; intros k os out H; [exact H|]. cbn [map debug_texts run_list app]. rewrite (IH k os out H). reflexivity. Qed.
Lemma layout_debug e sch bs n ns rest : layout e = Ok bs -> python_value (ed_props e) -> Forall2 layer_reads (ed_layers e) sch -> NoDup (map el_name (ed_layers e)) -> NoDup (dkeys (ed_texts e)) ->
  sizes_of e n ns -> debug (bs ++ rest) = (shown e n ns, Ok tt).
Proof.
  intros H Pp F NL NT [(tb & Ptb & En) Sz]. apply layout_inv in H. destruct H as (n1 & k1 & b1 & sc & n2 & k2 & b2 & ls & P1 & K1 & Q1 & Sc & P2 & K2 & Q2 & L & ->).
  assert (b2 = tb) by congruence. subst tb. assert (k2 = n) by congruence. clear K2. subst k2.
  assert (FP : Forall (fun l => Forall field_packs (el_fields l) /\ Forall (fun f => Forall python_value (ef_col f)) (el_fields l)) (ed_layers e)).
  { clear -F. induction F as [|el kf ls sch (_ & Hf & _ & Hc) F IH]; constructor; [|assumption]. split; [|assumption].
    induction Hf as [|ef ft fs fts (_ & _ & _ & Ha) Hf IHf]; constructor; [unfold field_packs; destruct (ef_args ef); tauto|]. inversion Hc; subst. auto. }
  assert (SO : Forall python_value (schema_objs (ed_layers e))).
  { clear -FP. induction FP as [|el ls [Hf _] FP IH]; [constructor|]. cbn [schema_objs flat_map]. constructor; [constructor|]. apply Forall_app. split; [|exact IH].
    induction Hf as [|f fs Hf1 Hf IHf]; [constructor|]. cbn [flat_map]. apply Forall_app. split; [|exact IHf]. unfold field_objs, field_packs in *. destruct (ef_args f); repeat constructor. inversion Hf1; assumption. inversion Hf1; assumption. }
  unfold debug. rewrite <- !app_assoc. change (firstn 4 (magic ++ ?x)) with magic. change (skipn 4 (magic ++ ?x)) with x. cbv beta.
  set (os := MInt k1 :: ed_props e :: (MArr (map (fun l => MStr (el_name l)) (ed_layers e)) :: schema_objs (ed_layers e)) ++ MInt n :: texts_obj (ed_texts e) :: flat_map (fun ln => MInt (snd ln) :: layer_objs (fst ln)) (combine (ed_layers e) ns)).
  apply (run_follows _ _ os).
  - unfold os. apply follows_pack; [constructor|exact P1|]. apply follows_pack; [exact Pp|exact Q1|]. apply follows_all; [|exact Sc|].
    + constructor; [|exact SO]. rewrite <- (map_map el_name MStr). apply pv_arr, pv_strs.
    + apply follows_pack; [constructor|exact P2|]. apply follows_pack; [exact (pv_texts _ NT)|exact Q2|].
      clear -FP Sz L. revert ls L. induction Sz as [|el k q ns (b & Pb & ->) Sz IH]; intros ls L; [exact I|]. inversion FP as [|? ? [_ Hc] FP']; subst.
      apply concatM_cons in L. destruct L as (p1 & p2 & E1 & E2 & ->). apply section_inv in E1. destruct E1 as (nn & body & z & Pn & Pb' & -> & Ez). assert (body = b) by congruence. subst body z.
      rewrite <- !app_assoc. cbn [combine flat_map fst snd]. rewrite <- app_comm_cons. apply follows_pack; [constructor|exact Pn|]. apply follows_all; [|exact Pb|exact (IH FP' _ E2)].
      unfold layer_objs. constructor; [constructor|]. clear -Hc. induction Hc as [|f fs Hf Hc IH]; [constructor|]. cbn [flat_map app]. repeat constructor; assumption.
  - unfold debug_prog, os, title. cbn [run_list elements app]. rewrite (schema_run (ed_layers e) [] _ _ ([mkLine (s "Texts: ") []; mkLine (s " * Length: %d bytes") [MInt n]] ++ map text_shown (ed_texts e) ++ [mkLine (s "Types data:") []] ++ flat_map layer_shown (combine (ed_layers e) ns))); [reflexivity|].
    intros sch' E. cbn [run_list print_number]. unfold texts_obj. rewrite (texts_run (ed_texts e) _ _ (mkLine (s "Types data:") [] :: flat_map layer_shown (combine (ed_layers e) ns))); [reflexivity|]. cbn [run_list].
    rewrite layers_run; [reflexivity| |].
    + intros l I. rewrite E, (find_last _ l NL I). reflexivity.
    + clear -Sz. induction Sz; cbn; congruence.
Qed.
Lemma sizes_exist e bs : layout e = Ok bs -> exists n ns, sizes_of e n ns.
Proof.
  intros H. apply layout_inv in H. destruct H as (n1 & k1 & b1 & sc & n2 & k2 & b2 & ls & P1 & K1 & Q1 & Sc & P2 & K2 & Q2 & L & ->). exists k2.
  assert (X : exists ns, Forall2 (fun l k => exists b, pack_all (layer_objs l) = Ok b /\ k = zlen b) (ed_layers e) ns).
  { clear -L. revert ls L. induction (ed_layers e) as [|l q IH]; intros ls L; [exists []; constructor|]. apply concatM_cons in L. destruct L as (p1 & p2 & E1 & E2 & ->). apply section_inv in E1. destruct E1 as (nn & body & z & Pn & Pb & -> & ->).
    destruct (IH _ E2) as (ns & F). exists (zlen body :: ns). constructor; eauto. }
  destruct X as (ns & F). exists ns. split; eauto.
Qed.
Theorem debug_shows h d ex tv h1 bs : doc_ok h d -> msgpack_encode h d ex tv = (h1, Ok bs) ->
  exists e n ns, codec_encode h d ex tv = (h1, Ok e) /\ sizes_of e n ns /\ forall rest, debug (bs ++ rest) = (shown e n ns, Ok tt).
Proof.
  intros D H. destruct (msgpack_encode_inv _ _ _ _ _ _ H) as (e & E & L). destruct (sizes_exist e bs L) as (n & ns & Sz). exists e, n, ns. split; [assumption|]. split; [assumption|]. intros rest.
  eapply layout_debug; [exact L| |eapply reads_back; eassumption| | |exact Sz].
  - destruct (codec_encode_inv _ _ _ _ _ _ E) as (o & _ & _ & _ & ->). apply (do_props h d D).
  - rewrite (proj1 (names_back h d ex tv h1 e D E)). apply (do_layers h d D).
  - rewrite (proj2 (names_back h d ex tv h1 e D E)). apply (do_texts h d D).
Qed.

(** ** the lines tell the document *)
Lemma split_by {A} (P : A -> Prop) (a a' r r' : list A) : Forall P a -> Forall P a' -> (forall x q, r = x :: q -> ~ P x) -> (forall x q, r' = x :: q -> ~ P x) -> a ++ r = a' ++ r' -> a = a' /\ r = r'.
Proof.
  intros Fa. revert a'. induction Fa as [|x a Px Fa IH]; intros a' Fa' R R' E.
  - destruct a' as [|y a']; [auto|]. cbn in E. inversion Fa'; subst. destruct (R y (a' ++ r') eq_refl); assumption.
  - destruct a' as [|y a']; [cbn in E; destruct (R' x (a ++ r) (eq_sym E)); assumption|]. cbn in E. injection E as <- E. inversion Fa'; subst. destruct (IH a' ltac:(assumption) R R' E) as [-> ->]. auto.
Qed.
Definition same_schema (l l' : elayer) : Prop := el_name l = el_name l' /\ map field_shown (el_fields l) = map field_shown (el_fields l').
Lemma shown_field f f' : field_shown f = field_shown f' -> ef_name f = ef_name f' /\ ef_type f = ef_type f' /\ ef_args f = ef_args f'.
Proof. unfold field_shown. intros H. destruct (ef_args f), (ef_args f'); injection H; intros; subst; try discriminate; auto. Qed.
Lemma all_fields fs : Forall (fun l : line => ln_format l = s "  - %s = %s") (map field_shown fs).
Proof. induction fs; constructor; [reflexivity|assumption]. Qed.
Lemma all_texts ts : Forall (fun l : line => ln_format l = s "%s = %s") (map text_shown ts).
Proof. induction ts; constructor; [reflexivity|assumption]. Qed.
Lemma schema_told ls : forall ls' r r', length ls = length ls' -> flat_map schema_shown ls ++ mkLine (s "Texts: ") [] :: r = flat_map schema_shown ls' ++ mkLine (s "Texts: ") [] :: r' -> Forall2 same_schema ls ls' /\ r = r'.
Proof.
  set (P := fun l : line => ln_format l = s "  - %s = %s").
  assert (NP : forall ls r x q, flat_map schema_shown ls ++ mkLine (s "Texts: ") [] :: r = x :: q -> ~ P x).
  { intros [|l ls0] r x q E; cbn in E; injection E as <- _; unfold P; cbn [ln_format]; discriminate. }
  induction ls as [|l ls IH]; intros [|l' ls'] r r' L E; try discriminate.
  - injection E as <-. auto.
  - cbn [flat_map schema_shown app] in E. rewrite <- !app_assoc in E. injection E as En E.
    destruct (split_by P _ _ _ _ (all_fields _) (all_fields _) (NP ls r) (NP ls' r') E) as [E1 E2].
    destruct (IH ls' r r' ltac:(cbn in L; lia) E2) as [F ->]. split; [|reflexivity]. constructor; [split; assumption|exact F].
Qed.
Lemma columns_told fs : forall fs' r r', map field_shown fs = map field_shown fs' -> flat_map column_shown fs ++ r = flat_map column_shown fs' ++ r' -> fs = fs' /\ r = r'.
Proof.
  induction fs as [|f fs IH]; intros [|f' fs'] r r' M E; try discriminate; [auto|]. cbn [map] in M. pose proof (f_equal (hd (mkLine [] [])) M) as Mf'. apply (f_equal (@tl line)) in M. cbn [hd tl] in M, Mf'. cbn [flat_map column_shown app] in E. injection E as _ Ec E. destruct (IH fs' r r' M E) as [-> ->]. split; [|reflexivity]. f_equal.
  destruct (shown_field _ _ Mf') as (A & B & C). destruct f, f'. cbn in *. congruence.
Qed.
Lemma layers_told ls : forall ls' ns ns', Forall2 same_schema ls ls' -> length ns = length ls -> length ns' = length ls' -> flat_map layer_shown (combine ls ns) = flat_map layer_shown (combine ls' ns') -> ls = ls'.
Proof.
  induction ls as [|l ls IH]; intros ls' ns ns' F L L' E; inversion F as [|? l' ? q [En Ef] F']; subst; [reflexivity|]. destruct ns as [|n ns]; [discriminate|]. destruct ns' as [|n' ns']; [discriminate|].
  cbn [combine flat_map layer_shown fst snd app] in E. injection E as _ _ Enum E. destruct (columns_told _ _ _ _ Ef E) as [Efs E']. rewrite (IH q ns ns' F' ltac:(cbn in L; lia) ltac:(cbn in L'; lia) E'). f_equal. destruct l, l'. cbn in *. congruence.
Qed.
Lemma map_MStr_inj a : forall b, map MStr a = map MStr b -> a = b.
Proof. induction a as [|x a IH]; intros [|y b] H; try discriminate; [reflexivity|]. cbn in H. injection H as <- H. rewrite (IH b H). reflexivity. Qed.
Lemma shown_tells e e' n n' ns ns' : length ns = length (ed_layers e) -> length ns' = length (ed_layers e') -> shown e n ns = shown e' n' ns' -> e = e'.
Proof.
  intros L L' E. unfold shown in E. cbn [app] in E. injection E as Ep Et E.
  assert (LL : length (ed_layers e) = length (ed_layers e')) by (rewrite <- (map_length (fun l => MStr (el_name l)) (ed_layers e)), Et; apply map_length).
  destruct (schema_told _ _ _ _ LL E) as [F E2]. injection E2 as _ E2.
  set (P := fun l : line => ln_format l = s "%s = %s").
  assert (NP : forall (r : list line) x q, mkLine (s "Types data:") [] :: r = x :: q -> ~ P x) by (intros r x q Q; injection Q as <- _; unfold P; cbn [ln_format]; discriminate).
  destruct (split_by P _ _ _ _ (all_texts _) (all_texts _) (NP _) (NP _) E2) as [E3 E4]. injection E4 as E4.
  pose proof (layers_told _ _ _ _ F L L' E4) as El.
  assert (Ex : ed_texts e = ed_texts e').
  { revert E3. generalize (ed_texts e) (ed_texts e'). clear. intros a. induction a as [|[k x] a IH]; intros [|[k' x'] b] H; try discriminate; [reflexivity|]. cbn in H. injection H as <- Hx H. rewrite (IH b H), (map_MStr_inj _ _ Hx). reflexivity. }
  destruct e, e'. cbn in *. congruence.
Qed.
Theorem debug_tells h d ex tv h1 bs h' d' ex' tv' h1' bs' rest rest' : doc_ok h d -> doc_ok h' d' -> msgpack_encode h d ex tv = (h1, Ok bs) -> msgpack_encode h' d' ex' tv' = (h1', Ok bs') ->
  debug (bs ++ rest) = debug (bs' ++ rest') -> bs = bs'.
Proof.
  intros D D' H H' E. destruct (debug_shows _ _ _ _ _ _ D H) as (e & n & ns & C & [_ Sz] & S1). destruct (debug_shows _ _ _ _ _ _ D' H') as (e' & n' & ns' & C' & [_ Sz'] & S2). rewrite S1, S2 in E. apply (f_equal fst) in E. cbn [fst] in E.
  assert (Q : e = e'). { eapply shown_tells; [| |exact E]; symmetry; [clear -Sz; induction Sz; cbn; congruence|clear -Sz'; induction Sz'; cbn; congruence]. }
  subst e'. unfold msgpack_encode in H, H'. rewrite C in H. rewrite C' in H'. congruence.
Qed.

(** ** fewer bytes *)
Lemma run_cut p : forall b1 b2 out, run p (b1 ++ b2) = (out, Ok tt) -> run p b1 = (out, Ok tt) \/ exists out' e, run p b1 = (out', Err e) /\ want e /\ begins out' out.
Proof.
  induction p as [|e|l k IH|k IH]; intros b1 b2 out R; cbn [run] in *.
  - injection R as <-. auto.
  - discriminate.
  - destruct (run k (b1 ++ b2)) as [o r] eqn:E. injection R as <- ->. destruct (IH b1 b2 o E) as [->|(o' & e & -> & W & c & ->)]; [auto|]. right. exists (l :: o'), e. repeat split; auto. exists c. reflexivity.
  - destruct (unpack1 (b1 ++ b2)) as [[o r]|] eqn:E; [|discriminate]. destruct (cut_unpack1 (S (length b1)) b1 b2 o r ltac:(lia) E) as [(r1 & -> & E1 & _)|(b3 & e & _ & _ & W & E1)]; rewrite E1.
    + exact (IH o r1 b2 out R).
    + right. exists [], e. repeat split; auto. exists out. reflexivity.
Qed.
Theorem debug_cut bs k out : (4 <= k)%nat -> debug bs = (out, Ok tt) -> debug (firstn k bs) = (out, Ok tt) \/ exists out' e, debug (firstn k bs) = (out', Err e) /\ want e /\ begins out' out.
Proof.
  unfold debug. intros K R. rewrite firstn_firstn, (Nat.min_l 4 k K). replace (skipn 4 (firstn k bs)) with (firstn (k - 4) (skipn 4 bs)) by (rewrite skipn_firstn_comm; reflexivity).
  apply (run_cut _ _ (skipn (k - 4) (skipn 4 bs))). rewrite firstn_skipn. exact R.
Qed.
