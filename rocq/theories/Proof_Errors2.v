(** Predicates on every kind of value. *)
From Verif Require Import PyBase PyBaseFacts Model_Heap Model_Layer Model_Text Model_Types Model_Document Model_Query Model_Algorithm Model_Graph Spec_Errors.
Local Open Scope Z_scope.

Lemma none_spec same h n f : exists b, sat same h (is_none f) n = Ok b /\ sat same h (has_value f) n = Ok (negb b) /\ (b = true <-> fget h n f = VNone).
Proof. cbn [sat is_none has_value]. destruct (fget h n f); eexists; (split; [reflexivity|]); (split; [reflexivity|]); split; congruence. Qed.
Lemma num_of_iff v : (exists d, num_of v = Some d) <-> numeric_value v.
Proof. split; [intros [d E]; destruct v; try discriminate; constructor|intros []; eexists; reflexivity]. Qed.
Lemma lists_cmp_prefix x r : lists_cmp (map Some x) (map Some (x ++ r)) = Ok (match r with [] => Eq | _ => Lt end) /\
  lists_cmp (map Some (x ++ r)) (map Some x) = Ok (match r with [] => Eq | _ => Gt end).
Proof. induction x as [|a x IH]; cbn [map app lists_cmp]; [destruct r; split; reflexivity|]. rewrite Nat.eqb_refl. exact IH. Qed.
Lemma lists_cmp_total x y : (exists r, y = x ++ r) \/ (exists r, x = y ++ r) \/ lists_cmp (map Some x) (map Some y) = Err TypeError.
Proof.
  revert y. induction x as [|a x IH]; intros y; [left; exists y; reflexivity|]. destruct y as [|b y]; [right; left; exists (a :: x); reflexivity|].
  cbn [map lists_cmp]. destruct (Nat.eqb_spec a b) as [<-|N]; [|right; right; reflexivity].
  destruct (IH y) as [(r & ->)|[(r & ->)|E]]; [left; exists r|right; left; exists r|right; right; exact E]; reflexivity.
Qed.
Lemma ord_spec same h n f o v : proper (fget h n f) -> proper v ->
  (comparable (fget h n f) v /\ exists b, sat same h (POrd o f v) n = Ok b) \/ (~ comparable (fget h n f) v /\ sat same h (POrd o f v) n = Err TypeError).
Proof.
  intros Pa Pv. cbn [sat]. set (a := fget h n f) in *. clearbody a. unfold py_ord.
  destruct (num_of a) as [x|] eqn:Ea, (num_of v) as [y|] eqn:Ev.
  - left. split; [apply cp_num; apply num_of_iff; eauto|eauto].
  - right. split; [|reflexivity]. intros C. inversion C; subst; try discriminate. match goal with H : numeric_value v |- _ => apply num_of_iff in H; destruct H; congruence end.
  - right. split; [|reflexivity]. intros C. inversion C; subst; try discriminate. match goal with H : numeric_value a |- _ => apply num_of_iff in H; destruct H; congruence end.
  - assert (Na : ~ numeric_value a) by (intros X; apply num_of_iff in X; destruct X; congruence).
    destruct a; try discriminate; try (right; split; [intros C; inversion C; subst; contradiction|reflexivity]).
    + destruct v; try discriminate; try (right; split; [intros C; inversion C; subst; contradiction|reflexivity]). left. split; [apply cp_str|eauto].
    + destruct v; try discriminate; try (right; split; [intros C; inversion C; subst; contradiction|reflexivity]). left. split; [apply cp_bytes|eauto].
    + destruct v; try discriminate; try (right; split; [intros C; inversion C; subst; contradiction|reflexivity]).
      destruct (Pa _ eq_refl) as [x ->], (Pv _ eq_refl) as [y ->]. destruct (lists_cmp_total x y) as [(r & ->)|[(r & ->)|E]].
      * left. split; [apply cp_list|]. rewrite (proj1 (lists_cmp_prefix x r)). cbn [rbind]. eauto.
      * left. split; [apply cp_list'|]. rewrite (proj2 (lists_cmp_prefix y r)). cbn [rbind]. eauto.
      * right. rewrite E. split; [|reflexivity]. intros C.
        assert (Inj : forall a b : list nid, map Some a = map Some b -> a = b) by (induction a as [|p a IH]; intros [|q b] Q; cbn in Q; try discriminate; [reflexivity|injection Q as -> Q; f_equal; auto]).
        inversion C; subst; [contradiction| |].
        -- match goal with H : map Some _ = map Some x, H' : map Some _ = map Some y |- _ => apply Inj in H, H'; subst end. rewrite (proj1 (lists_cmp_prefix _ _)) in E. discriminate.
        -- match goal with H : map Some _ = map Some x, H' : map Some _ = map Some y |- _ => apply Inj in H, H'; subst end. rewrite (proj2 (lists_cmp_prefix _ _)) in E. discriminate.
Qed.
Lemma ord_lists same h n f x r :
  (fget h n f = VNodeList (map Some x) -> let q o := sat same h (POrd o f (VNodeList (map Some (x ++ r)))) n in
     q OLt = Ok (match r with [] => false | _ => true end) /\ q OLe = Ok true /\ q OGt = Ok false /\ q OGe = Ok (match r with [] => true | _ => false end)) /\
  (fget h n f = VNodeList (map Some (x ++ r)) -> let q o := sat same h (POrd o f (VNodeList (map Some x))) n in
     q OGt = Ok (match r with [] => false | _ => true end) /\ q OGe = Ok true /\ q OLt = Ok false /\ q OLe = Ok (match r with [] => true | _ => false end)).
Proof.
  split; intros E; cbv zeta; cbn [sat]; rewrite E; unfold py_ord; cbn [num_of]; [rewrite (proj1 (lists_cmp_prefix x r))|rewrite (proj2 (lists_cmp_prefix x r))]; cbn [rbind]; destruct r; repeat split; reflexivity.
Qed.
Lemma nodup_incl_len {A} (a b : dict A) : NoDup (dkeys a) -> NoDup (dkeys b) -> zlen a = zlen b -> incl (dkeys a) (dkeys b) -> incl (dkeys b) (dkeys a).
Proof.
  intros Na Nb L I. apply NoDup_length_incl; [exact Na| |exact I]. unfold dkeys, zlen in *. rewrite !map_length. lia.
Qed.
Lemma dget_none_iff {A} (d : dict A) k : dget d k = None <-> ~ In k (dkeys d).
Proof. rewrite <- dmem_In. unfold dmem. destruct (dget d k); split; congruence. Qed.
Lemma dict_eqb_spec same a b : NoDup (dkeys a) -> NoDup (dkeys b) ->
  (dict_eqb same a b = true <-> forall k, match dget a k, dget b k with Some x, Some y => val_same same x y = true | None, None => True | _, _ => False end).
Proof.
  intros Na Nb. unfold dict_eqb. rewrite andb_true_iff, Z.eqb_eq, forallb_forall. split.
  - intros [L F] k. assert (I : incl (dkeys a) (dkeys b)).
    { intros q Hq. unfold dkeys in Hq. apply in_map_iff in Hq. destruct Hq as ([q' v] & <- & Hq). specialize (F _ Hq). cbn [fst snd] in *. destruct (dget b q') eqn:E; [|discriminate]. apply dmem_In. unfold dmem. rewrite E. reflexivity. }
    destruct (dget a k) as [x|] eqn:Ea.
    + apply dget_In in Ea. specialize (F _ Ea). cbn [fst snd] in F. destruct (dget b k); [exact F|discriminate].
    + apply dget_none_iff in Ea. destruct (dget b k) as [y|] eqn:Eb; [|exact Logic.I]. apply Ea. apply (nodup_incl_len a b Na Nb L I). apply dmem_In. unfold dmem. rewrite Eb. reflexivity.
  - intros F. split.
    + assert (I1 : incl (dkeys a) (dkeys b)). { intros k Hk. specialize (F k). apply dmem_In. apply dmem_In in Hk. unfold dmem in *. destruct (dget a k); [|discriminate]. destruct (dget b k); [reflexivity|destruct F]. }
      assert (I2 : incl (dkeys b) (dkeys a)). { intros k Hk. specialize (F k). apply dmem_In. apply dmem_In in Hk. unfold dmem in *. destruct (dget b k); [|discriminate]. destruct (dget a k); [reflexivity|destruct F]. }
      apply NoDup_incl_length in I1, I2; auto. unfold dkeys, zlen in *. rewrite !map_length in *. lia.
    + intros [k v] I. specialize (F k). rewrite (dget_nodup _ _ _ Na I) in F. cbn [fst snd]. destruct (dget b k); [exact F|destruct F].
Qed.
Lemma val_same_iff same x y : val_same same x y = true <-> same_value same x y.
Proof.
  unfold val_same, same_value. rewrite orb_true_iff. split; intros [H|H]; auto; right.
  - destruct x; try discriminate. destruct y; try discriminate. destruct (dbl_of bits) eqn:E; try discriminate. destruct (dbl_of bits0) eqn:E'; try discriminate. exists bits, bits0. auto.
  - destruct H as (p & q & -> & -> & -> & -> & H). exact H.
Qed.
Lemma node_ne_spec same h n f a b : fget h n f = VNode a -> NoDup (dkeys (n_fieldsof h a)) -> NoDup (dkeys (n_fieldsof h b)) ->
  (exists e, sat same h (PEq f (VNode b)) n = Ok e /\ (e = true <-> a = b)) /\
  (exists d, sat same h (PNeq f (VNode b)) n = Ok d /\ (d = false <-> a = b \/
     forall k, match dget (n_fieldsof h a) k, dget (n_fieldsof h b) k with Some x, Some y => same_value same x y | None, None => True | _, _ => False end)).
Proof.
  intros E Na Nb. cbn [sat]. rewrite E. split.
  - exists (Nat.eqb a b). split; [reflexivity|apply Nat.eqb_eq].
  - cbn [py_ne]. eexists. split; [reflexivity|]. rewrite negb_false_iff, orb_true_iff, Nat.eqb_eq, (dict_eqb_spec same _ _ Na Nb).
    assert (Q : (forall k, match dget (n_fieldsof h a) k, dget (n_fieldsof h b) k with Some x, Some y => val_same same x y = true | None, None => True | _, _ => False end) <->
      (forall k, match dget (n_fieldsof h a) k, dget (n_fieldsof h b) k with Some x, Some y => same_value same x y | None, None => True | _, _ => False end)); [|tauto].
    split; intros H k; specialize (H k); destruct (dget (n_fieldsof h a) k), (dget (n_fieldsof h b) k); auto; apply (val_same_iff same); exact H.
Qed.
Lemma any_refuses same h n f items : (sat same h (PAny f items) n = Err TypeError <-> exists l, fget h n f = VNodeList l) /\
  (is_any f items = Err TypeError <-> exists l, In (VNodeList l) items) /\ (is_any f items = Err TypeError \/ is_any f items = Ok (PAny f items)).
Proof.
  split; [|split].
  - cbn [sat]. unfold py_in. destruct (fget h n f); cbn [hashable]; split; try discriminate; try (intros [l E]; discriminate); eauto.
  - unfold is_any. destruct (forallb hashable items) eqn:E; split; try discriminate; auto.
    + rewrite forallb_forall in E. intros [l I]. specialize (E _ I). discriminate.
    + intros _. clear -E. induction items as [|v items IH]; cbn in E; [discriminate|]. destruct (hashable v) eqn:Ev; [destruct (IH E) as [l I]; exists l; right; exact I|].
      destruct v; try discriminate. eexists. left. reflexivity.
  - unfold is_any. destruct (forallb hashable items); auto.
Qed.
Lemma span_pred_refuses test h c f start stop : 
  (dget (coll_fields h c) f = None -> span_pred test h c f start stop = Err KeyError) /\
  (forall t, dget (coll_fields h c) f = Some t -> dt_name t <> TSpan -> span_pred test h c f start stop = Err AssertionError).
Proof.
  unfold span_pred, dgetE. split; [intros ->; reflexivity|]. intros t -> N. cbn [rbind]. destruct (dt_name t); try reflexivity. congruence.
Qed.
Lemma span_pred_other same test h c f start stop p h' n : span_pred test h c f start stop = Ok p -> (forall tn x a b, fget h' n f <> VSpan tn x a b) -> sat same h' p n = Err AttributeError.
Proof.
  unfold span_pred. destruct (dgetE (coll_fields h c) f) as [t|]; cbn [rbind]; [|discriminate]. destruct (tname_eqb (dt_name t) TSpan); [|discriminate]. intros [= <-] F. cbn [sat].
  destruct (fget h' n f); try reflexivity. exfalso. eapply F. reflexivity.
Qed.

(** ** span_translate *)
Lemma span_field_refuses h d k l f e : dget (d_layers d) k = Some l -> fails h d (RField k f) e -> span_field h l f = Err e.
Proof. intros L F. inversion F; subst; replace l0 with l in * by congruence; unfold span_field, dgetE; match goal with H : dget (l_fields _) f = _ |- _ => rewrite H end; [reflexivity|]. cbn [rbind]. destruct (dt_name t); try reflexivity. congruence. Qed.
Lemma span_field_fine h d k l f : dget (d_layers d) k = Some l -> (forall e, ~ fails h d (RField k f) e) -> exists t, dget (l_fields (h_layer h l)) f = Some t /\ dt_name t = TSpan /\ span_field h l f = Ok t.
Proof.
  intros L F. unfold span_field, dgetE. destruct (dget (l_fields (h_layer h l)) f) as [t|] eqn:E; [|exfalso; eapply F; eapply fl_field; eauto].
  exists t. cbn [rbind]. destruct (dt_name t) eqn:En; try (exfalso; eapply F; eapply fl_type; eauto; congruence). auto.
Qed.
Lemma layer_fine h d k : (forall e, ~ fails h d (RLayer k) e) -> exists l, dget (d_layers d) k = Some l.
Proof. intros F. destruct (dget (d_layers d) k) as [l|] eqn:E; [eauto|]. exfalso. eapply F. apply fl_layer. exact E. Qed.
Lemma setup_err h d mapping tf sf remap sf2 tf2 e : st_setup h d mapping tf sf remap sf2 tf2 = Err e -> span_translate h d mapping tf sf remap sf2 tf2 = (h, Err e).
Proof. unfold span_translate. intros ->. reflexivity. Qed.
Lemma translate_refuses h d mapping tf sf remap sf2 tf2 pre r post e :
  [RLayer mapping; RField mapping tf; RField mapping sf; RLayer remap; RField remap sf2; RField remap tf2] = pre ++ r :: post ->
  (forall q e', In q pre -> ~ fails h d q e') -> fails h d r e -> span_translate h d mapping tf sf remap sf2 tf2 = (h, Err e).
Proof.
  intros E P F. apply setup_err. unfold st_setup.
  destruct pre as [|q1 pre]; cbn in E; injection E as <- E; [inversion F; subst; unfold dgetE; match goal with H : dget (d_layers d) _ = None |- _ => rewrite H end; reflexivity|].
  destruct (layer_fine h d mapping (fun e' => P _ e' (or_introl eq_refl))) as [ml Hm]. unfold dgetE at 1. rewrite Hm. cbn [rbind].
  destruct pre as [|q2 pre]; cbn in E; injection E as <- E; [rewrite (span_field_refuses h d mapping ml tf e Hm F); reflexivity|].
  destruct (span_field_fine h d mapping ml tf Hm (fun e' => P _ e' (or_intror (or_introl eq_refl)))) as (t1 & _ & _ & ->). cbn [rbind].
  destruct pre as [|q3 pre]; cbn in E; injection E as <- E; [rewrite (span_field_refuses h d mapping ml sf e Hm F); reflexivity|].
  destruct (span_field_fine h d mapping ml sf Hm (fun e' => P _ e' (or_intror (or_intror (or_introl eq_refl))))) as (t2 & _ & _ & ->). cbn [rbind].
  destruct pre as [|q4 pre]; cbn in E; injection E as <- E; [inversion F; subst; unfold dgetE; match goal with H : dget (d_layers d) _ = None |- _ => rewrite H end; reflexivity|].
  destruct (layer_fine h d remap (fun e' => P _ e' (or_intror (or_intror (or_intror (or_introl eq_refl)))))) as [rl Hr]. unfold dgetE at 1. rewrite Hr. cbn [rbind].
  destruct pre as [|q5 pre]; cbn in E; injection E as <- E; [rewrite (span_field_refuses h d remap rl sf2 e Hr F); reflexivity|].
  destruct (span_field_fine h d remap rl sf2 Hr (fun e' => P _ e' (or_intror (or_intror (or_intror (or_intror (or_introl eq_refl))))))) as (t3 & _ & _ & ->). cbn [rbind].
  destruct pre as [|q6 pre]; cbn in E; injection E as <- E; [rewrite (span_field_refuses h d remap rl tf2 e Hr F); reflexivity|].
  destruct pre; discriminate.
Qed.
Lemma translate_no_text h d mapping tf sf remap sf2 tf2 ml t ctx :
  (forall q e', In q [RLayer mapping; RField mapping tf; RField mapping sf; RLayer remap; RField remap sf2; RField remap tf2] -> ~ fails h d q e') ->
  dget (d_layers d) mapping = Some ml -> dget (l_fields (h_layer h ml)) tf = Some t ->
  dget (dt_opts t) (s "context") = None \/ (dget (dt_opts t) (s "context") = Some (VStr ctx) /\ dget (d_texts d) ctx = None) ->
  span_translate h d mapping tf sf remap sf2 tf2 = (h, Err KeyError).
Proof.
  intros P Hm Ht C. apply setup_err. unfold st_setup. destruct (layer_fine h d remap (fun e' => P _ e' (or_intror (or_intror (or_intror (or_introl eq_refl)))))) as [rl Hr].
  unfold dgetE at 1. rewrite Hm. cbn [rbind].
  destruct (span_field_fine h d mapping ml tf Hm (fun e' => P _ e' (or_intror (or_introl eq_refl)))) as (t1 & Q & _ & ->). cbn [rbind].
  destruct (span_field_fine h d mapping ml sf Hm (fun e' => P _ e' (or_intror (or_intror (or_introl eq_refl))))) as (t2 & _ & _ & ->). cbn [rbind].
  unfold dgetE at 1. rewrite Hr. cbn [rbind].
  destruct (span_field_fine h d remap rl sf2 Hr (fun e' => P _ e' (or_intror (or_intror (or_intror (or_intror (or_introl eq_refl))))))) as (t3 & _ & _ & ->). cbn [rbind].
  destruct (span_field_fine h d remap rl tf2 Hr (fun e' => P _ e' (or_intror (or_intror (or_intror (or_intror (or_intror (or_introl eq_refl)))))))) as (t4 & _ & _ & ->). cbn [rbind].
  replace t1 with t by congruence. unfold opt_name, dgetE. destruct C as [C|[C C']]; rewrite C; [reflexivity|]. cbn [rbind]. rewrite C'. reflexivity.
Qed.
(** ** children_of *)
Lemma children_refuses fields f y h v : children_of fields [f] = Ok y -> v = VNone \/ numeric_value v -> y h v = Err TypeError.
Proof.
  cbn [children_of]. unfold yielder_of. destruct (dgetE fields f) as [t|]; cbn [rbind]; [|discriminate].
  destruct (dt_name t); try discriminate; intros [= <-] [->|V]; try reflexivity; destruct V; reflexivity.
Qed.
Lemma children_not_list fields f y h n t v : children_of fields [f] = Ok y -> dget fields f = Some t -> dt_name t = TNodeRefMany -> dget (n_fieldsof h n) f = Some v ->
  v = VNone \/ numeric_value v -> y h (VNode n) = Err TypeError.
Proof.
  cbn [children_of]. unfold yielder_of, dgetE. intros E T N V X. rewrite T in E. cbn [rbind] in E. rewrite N in E. injection E as <-. unfold node_array_iter. cbn [field_in rbind]. rewrite V.
  destruct X as [->|X]; [reflexivity|]. destruct X; reflexivity.
Qed.
