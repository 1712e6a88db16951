(** Encoding a document: offsets, columns, and what the encoded document contains. *)
From Verif Require Import PyBase PyBaseFacts Model_Text Model_Heap Model_Layer Model_Types Model_Msgpack Model_Document Model_Coerce Model_Codec
  Spec_Layer Spec_Types Spec_Msgpack Spec_Document Spec_Codec Proof_Heap Proof_Layer Proof_Layer2 Proof_Layer3 Proof_History Proof_Layer4 Proof_Types
  Proof_Text Proof_Msgpack Proof_Document Proof_Layout.
Local Open Scope Z_scope.
Local Arguments s : simpl never.

Lemma mapM_Forall2 {A B} (f : A -> res B) l : forall r, mapM f l = Ok r <-> Forall2 (fun x y => f x = Ok y) l r.
Proof.
  induction l as [|x l IH]; intros r; simpl.
  - split; [intros [= <-]; constructor|intros H; inversion H; reflexivity].
  - split.
    + destruct (f x) as [y|] eqn:E; [|discriminate]. cbn [rbind]. destruct (mapM f l) as [ys|]; [|discriminate]. cbn [rbind].
      intros H. apply Ok_inj in H. subst r. constructor; [assumption|apply IH; reflexivity].
    + intros H. inversion H as [|? y ? ys E F]; subst. rewrite E. cbn [rbind]. apply IH in F. rewrite F. reflexivity.
Qed.
Lemma Forall2_nth {A B} (R : A -> B -> Prop) a : forall b i x, Forall2 R a b -> nth_error a i = Some x -> exists y, nth_error b i = Some y /\ R x y.
Proof.
  induction a as [|a0 a IH]; intros b i x F H; destruct i; try discriminate; inversion F; subst; simpl in *.
  - injection H as <-. eauto.
  - eauto.
Qed.
Lemma Forall2_impl' {A B} (R S : A -> B -> Prop) a b : Forall2 R a b -> (forall x y, In x a -> R x y -> S x y) -> Forall2 S a b.
Proof. induction 1 as [|x y a b H F IH]; intros I; constructor; [apply I; [left; reflexivity|assumption]|apply IH; intros; apply I; [right|]; assumption]. Qed.
Lemma Forall2_map_r {A B C} (R : A -> C -> Prop) (g : B -> C) a : forall b, Forall2 (fun x y => R x (g y)) a b <-> Forall2 R a (map g b).
Proof.
  induction a as [|x a IH]; intros [|y b]; simpl; split; intros H; try (inversion H; fail); try constructor; inversion H; subst; auto; apply IH; assumption.
Qed.

(** ** collecting offsets *)
Fixpoint collect_layers (h : heap) (ls : dict lid) (acc : dict (list Z)) : res (dict (list Z)) :=
  match ls with
  | [] => Ok acc
  | (_, l) :: r => let* a := collect_fields h (layer_iter h l) (l_fields (h_layer h l)) acc in collect_layers h r a
  end.
Lemma field_offsets_same h h' f ns : (forall n, n_fieldsof h' n = n_fieldsof h n) -> field_offsets h' f ns = field_offsets h f ns.
Proof. intros E. induction ns as [|[n|] ns IH]; simpl; [reflexivity| |reflexivity]. rewrite E, IH. reflexivity. Qed.
Lemma collect_fields_same h h' ns fs : (forall n, n_fieldsof h' n = n_fieldsof h n) -> forall acc, collect_fields h' ns fs acc = collect_fields h ns fs acc.
Proof.
  intros E. induction fs as [|[f t] fs IH]; intros acc; simpl; [reflexivity|]. rewrite (field_offsets_same h h') by assumption.
  destruct (dt_name t); auto. destruct (opt_name t (s "context")); [|reflexivity]. cbn [rbind]. destruct (dgetE acc a); [|reflexivity]. cbn [rbind].
  destruct (field_offsets h f ns); [|reflexivity]. cbn [rbind]. apply IH.
Qed.
Lemma collect_layers_same h h' ls : looks_same h h' -> forall acc, collect_layers h' ls acc = collect_layers h ls acc.
Proof.
  intros S. induction ls as [|[k l] ls IH]; intros acc; simpl; [reflexivity|]. rewrite (same_iter _ _ S), (same_schema _ _ S).
  rewrite (collect_fields_same h h') by apply S. destruct (collect_fields _ _ _ acc); [|reflexivity]. cbn [rbind]. apply IH.
Qed.
Lemma prepare_same h l : wf h -> (l < h_lnext h)%nat -> wf (layer_prepare h l) /\ looks_same h (layer_prepare h l) /\ h_lnext (layer_prepare h l) = h_lnext h.
Proof. intros W Hl. assert (F : Forall (fun l => (l < h_lnext h)%nat) [l]) by (constructor; [assumption|constructor]). destruct (prepared_same h [l] W F) as (A & B & C & _). cbv zeta in *. simpl in *. auto. Qed.
Lemma compile_layers_collect ls : forall h check acc h1 r, wf h -> (forall k l, In (k, l) ls -> (l < h_lnext h)%nat) ->
  compile_layers h ls check acc = (h1, Ok r) -> collect_layers h ls acc = Ok r.
Proof.
  induction ls as [|[k l] ls IH]; intros h check acc h1 r W K H; simpl in *; [congruence|].
  unfold compile_layer in H. destruct (prepare_same h l W (K k l (or_introl eq_refl))) as (W1 & S1 & L1).
  destruct (if check then _ else _) as [u|]; [|discriminate].
  destruct (collect_fields _ _ _ acc) as [a|] eqn:Ec; [|discriminate].
  rewrite (same_iter _ _ S1), (same_schema _ _ S1), (collect_fields_same h) in Ec by apply S1. rewrite Ec. cbn [rbind].
  rewrite <- (collect_layers_same h (layer_prepare h l)) by assumption. eapply IH; eauto. intros k' l' Hin. rewrite L1. eapply K. right. eassumption.
Qed.

(** where the offsets come from, and that none is missing *)
Definition span_offset (h : heap) (ns : list (option nid)) (fs : dict dtype) (c : pystr) (x : Z) : Prop :=
  exists n f t tn tx a b, In (Some n) ns /\ In (f, t) fs /\ targets_text t c /\ dget (n_fieldsof h n) f = Some (VSpan tn tx a b) /\ (x = a \/ x = b).
Lemma field_offsets_In h f ns : forall q, field_offsets h f ns = Ok q ->
  (forall x, In x q <-> exists n tn tx a b, In (Some n) ns /\ dget (n_fieldsof h n) f = Some (VSpan tn tx a b) /\ (x = a \/ x = b)).
Proof.
  induction ns as [|[n|] ns IH]; intros q H x; simpl in H; [| |discriminate].
  - injection H as <-. simpl. split; [tauto|intros (n & tn & tx & a & b & [] & _)].
  - destruct (dget (n_fieldsof h n) f) as [v|] eqn:E.
    + destruct v; try discriminate. destruct (field_offsets h f ns) as [q'|]; [|discriminate]. cbn [rbind] in H. apply Ok_inj in H. subst q. simpl. rewrite IH by reflexivity. split.
      * intros [<-|[<-|(m & tn & tx & a & b & Hm & R)]]; [exists n|exists n|exists m, tn, tx, a, b; auto]; do 4 eexists; (split; [left; reflexivity|]); (split; [eassumption|auto]).
      * intros (m & tn & tx & a & b & [[= <-]|Hm] & E' & R); [rewrite E in E'; injection E' as <- <- <- <-; intuition|right; right; exists m, tn, tx, a, b; auto].
    + rewrite (IH _ H). split.
      * intros (m & tn & tx & a & b & Hm & R). exists m, tn, tx, a, b. split; [right; assumption|assumption].
      * intros (m & tn & tx & a & b & [[= <-]|Hm] & E' & R); [congruence|]. exists m, tn, tx, a, b. auto.
Qed.
Lemma targets_text_unique t c c' : targets_text t c -> opt_name t (s "context") = Ok c' -> c' = c.
Proof. intros [_ H] H'. apply opt_name_ok in H'. congruence. Qed.
Lemma dkeys_dset_mem {A} (d : dict A) k v o : dget d k = Some o -> dkeys (dset d k v) = dkeys d.
Proof. intros H. rewrite dkeys_dset. unfold dmem. rewrite H. reflexivity. Qed.
Lemma collect_fields_spec h ns fs : forall acc r, collect_fields h ns fs acc = Ok r ->
  dkeys r = dkeys acc /\
  forall c o, dget acc c = Some o -> exists o', dget r c = Some (o ++ o') /\ forall x, In x o' <-> span_offset h ns fs c x.
Proof.
  induction fs as [|[f t] fs IH]; intros acc r H; simpl in H.
  - apply Ok_inj in H. subst r. split; [reflexivity|]. intros c o E. exists []. rewrite app_nil_r. split; [assumption|].
    intros x. split; [intros []|intros (n & f & t & tn & tx & a & b & _ & [] & _)].
  - destruct (tname_eqb (dt_name t) TSpan) eqn:Et.
    + apply tname_eqb_eq in Et. rewrite Et in H. destruct (opt_name t (s "context")) as [c0|] eqn:Eo; [|discriminate]. cbn [rbind] in H.
      destruct (dgetE acc c0) as [old|] eqn:Ed; [|discriminate]. cbn [rbind] in H. destruct (field_offsets h f ns) as [q|] eqn:Ef; [|discriminate]. cbn [rbind] in H.
      assert (Ed' : dget acc c0 = Some old) by (unfold dgetE in Ed; destruct (dget acc c0); [congruence|discriminate]).
      destruct (IH _ _ H) as [K1 K2]. split; [rewrite K1; eapply dkeys_dset_mem; eassumption|].
      pose proof (field_offsets_In h f ns q Ef) as Hq. intros c o E. destruct (str_eqb_spec c c0) as [->|Hne].
      * rewrite Ed' in E. injection E as <-. destruct (K2 c0 (old ++ q)) as (o' & E1 & E2); [rewrite dget_dset_same; reflexivity|].
        exists (q ++ o'). rewrite app_assoc. split; [assumption|]. intros x. rewrite in_app_iff, Hq, E2. split.
        -- intros [(n & tn & tx & a & b & H1 & H2 & H3)|(n & f' & t' & tn & tx & a & b & H1 & H2 & H3)].
           ++ exists n, f, t, tn, tx, a, b. split; [assumption|]. split; [left; reflexivity|]. split; [split; [assumption|apply opt_name_ok; assumption]|auto].
           ++ exists n, f', t', tn, tx, a, b. split; [assumption|]. split; [right; assumption|assumption].
        -- intros (n & f' & t' & tn & tx & a & b & H1 & [[= <- <-]|H2] & H3 & H4); [left; exists n, tn, tx, a, b; auto|right; exists n, f', t', tn, tx, a, b; auto].
      * destruct (K2 c o) as (o' & E1 & E2); [rewrite dget_dset_other by assumption; assumption|]. exists o'. split; [assumption|]. intros x. rewrite E2. split.
        -- intros (n & f' & t' & tn & tx & a & b & H1 & H2 & H3). exists n, f', t', tn, tx, a, b. split; [assumption|]. split; [right; assumption|assumption].
        -- intros (n & f' & t' & tn & tx & a & b & H1 & [[= <- <-]|H2] & H3 & H4); [exfalso; apply Hne; symmetry; eapply targets_text_unique; eauto|exists n, f', t', tn, tx, a, b; auto].
    + assert (H' : collect_fields h ns fs acc = Ok r) by (destruct (dt_name t); try discriminate; exact H).
      destruct (IH _ _ H') as [K1 K2]. split; [assumption|]. intros c o E. destruct (K2 c o E) as (o' & E1 & E2). exists o'. split; [assumption|]. intros x. rewrite E2. split.
      * intros (n & f' & t' & tn & tx & a & b & H1 & H2 & H3). exists n, f', t', tn, tx, a, b. split; [assumption|]. split; [right; assumption|assumption].
      * intros (n & f' & t' & tn & tx & a & b & H1 & [[= <- <-]|H2] & H3 & H4); [exfalso; destruct H3 as [H3 _]; rewrite H3 in Et; discriminate|exists n, f', t', tn, tx, a, b; auto].
Qed.
Lemma collect_layers_spec h ls : forall acc r, collect_layers h ls acc = Ok r ->
  dkeys r = dkeys acc /\
  forall c o, dget acc c = Some o -> exists o', dget r c = Some (o ++ o') /\
    forall x, In x o' <-> exists k l, In (k, l) ls /\ span_offset h (layer_iter h l) (l_fields (h_layer h l)) c x.
Proof.
  induction ls as [|[k l] ls IH]; intros acc r H; simpl in H.
  - apply Ok_inj in H. subst r. split; [reflexivity|]. intros c o E. exists []. rewrite app_nil_r. split; [assumption|]. intros x. split; [intros []|intros (k & l & [] & _)].
  - destruct (collect_fields _ _ _ acc) as [a|] eqn:Ec; [|discriminate]. cbn [rbind] in H. destruct (collect_fields_spec _ _ _ _ _ Ec) as [K1 K2].
    destruct (IH _ _ H) as [K3 K4]. split; [congruence|]. intros c o E. destruct (K2 c o E) as (o1 & E1 & F1). destruct (K4 c _ E1) as (o2 & E2 & F2).
    exists (o1 ++ o2). rewrite app_assoc. split; [assumption|]. intros x. rewrite in_app_iff, F1, F2. split.
    + intros [Hx|(k' & l' & Hin & Hx)]; [exists k, l; split; [left; reflexivity|assumption]|exists k', l'; split; [right; assumption|assumption]].
    + intros (k' & l' & [[= <- <-]|Hin] & Hx); [left; assumption|right; exists k', l'; auto].
Qed.
Definition doc_offset (h : heap) (d : doc) (c : pystr) (x : Z) : Prop :=
  exists k l, In (k, l) (d_layers d) /\ span_offset h (layer_iter h l) (l_fields (h_layer h l)) c x.
Lemma final_offsets_spec ts : forall acc o, final_offsets ts acc = Ok o ->
  Forall2 (fun kt ko => fst ko = fst kt /\ exists c, dget acc (fst kt) = Some c /\ snd ko = sorted_offsets (snd kt) c) ts o.
Proof.
  induction ts as [|[k t] ts IH]; intros acc o H; simpl in H.
  - apply Ok_inj in H. subst o. constructor.
  - destruct (dgetE acc k) as [c|] eqn:E; [|discriminate]. cbn [rbind] in H. destruct (final_offsets ts acc) as [q|] eqn:Eq; [|discriminate]. cbn [rbind] in H.
    apply Ok_inj in H. subst o. constructor; [|apply IH; assumption]. simpl. split; [reflexivity|]. exists c. split; [|reflexivity].
    unfold dgetE in E. destruct (dget acc k); congruence.
Qed.
Lemma dget_map_nil {A} (ts : dict A) k : In k (dkeys ts) -> dget (map (fun kt => (fst kt, @nil Z)) ts) k = Some [].
Proof.
  induction ts as [|[k' t] ts IH]; simpl; [intros []|]. intros [->|H]; [rewrite str_eqb_refl; reflexivity|]. destruct (str_eqb k k'); auto.
Qed.
Lemma dget_Forall2 {A B} (R : pystr -> A -> B -> Prop) d : forall e, Forall2 (fun x y => fst y = fst x /\ R (fst x) (snd x) (snd y)) d e ->
  forall k v, dget d k = Some v -> exists w, dget e k = Some w /\ R k v w.
Proof.
  induction d as [|[k v] d IH]; intros e F k0 v0 H; [discriminate|]. inversion F as [|? [k' w] ? e' [E1 E2] F']; subst. simpl in *. subst k'.
  destruct (str_eqb_spec k0 k) as [->|Hne]; [injection H as <-; eauto|eauto].
Qed.
Lemma compile_offsets h d e t h1 o : wf h -> known h d -> compile h d e t = (h1, Ok o) ->
  dkeys o = dkeys (d_texts d) /\
  forall c txt, dget (d_texts d) c = Some txt -> exists q, dget o c = Some (sorted_offsets txt q) /\ forall x, In x q <-> doc_offset h d c x.
Proof.
  unfold compile. intros W K H. destruct (check_refs h d); [|discriminate]. destruct (compile_layers _ _ _ _) as [h2 [acc|]] eqn:Ec; [|discriminate].
  injection H as <- H. pose proof (compile_layers_collect _ _ _ _ _ _ W K Ec) as Hc. destruct (collect_layers_spec _ _ _ _ Hc) as [K1 K2].
  pose proof (final_offsets_spec _ _ _ H) as F. split.
  - clear - F. induction F as [|? ? ? ? [E _] _ IH]; [reflexivity|]. simpl. rewrite E. f_equal. assumption.
  - intros c txt Ht. destruct (dget_Forall2 (fun k t y => exists c, dget acc k = Some c /\ y = sorted_offsets t c) _ _ F _ _ Ht) as (w & E1 & q & E2 & ->).
    destruct (K2 c []) as (o' & E3 & E4). { apply dget_map_nil. apply dget_In in Ht. apply (in_map fst) in Ht. assumption. }
    rewrite E3 in E2. injection E2 as <-. exists o'. split; [assumption|exact E4].
Qed.

(** ** types and options *)
Lemma type_string_back t ts : type_string t = Ok ts -> string_type ts = Ok t.
Proof. destruct t; intros H; try discriminate; apply Ok_inj in H; subst; vm_compute; reflexivity. Qed.
Lemma value_obj_back v o : value_obj v = Ok o -> obj_value o = Ok v.
Proof. destruct v; intros H; try discriminate; apply Ok_inj in H; subst; reflexivity. Qed.
Lemma value_obj_pv v o : option_value v -> value_obj v = Ok o -> python_value o.
Proof. intros H E. destruct H; apply Ok_inj in E; subst o; constructor; assumption. Qed.
Lemma value_obj_ok v : option_value v -> exists o, value_obj v = Ok o.
Proof. intros H. destruct H; eexists; reflexivity. Qed.
Lemma dict_objs_spec d a : dict_objs d = Ok a -> dkeys a = dkeys d /\ dict_values a = Ok d /\
  ((forall k v, In (k, v) d -> option_value v) -> Forall python_value (map snd a)).
Proof.
  unfold dict_objs, dict_values. revert a. induction d as [|[k v] d IH]; intros a H; cbn [mapM fst snd] in H.
  - apply Ok_inj in H. subst a. repeat split; constructor.
  - destruct (value_obj v) as [o|] eqn:E; [|discriminate]. cbn [rbind] in H. destruct (mapM _ d) as [b|]; [|discriminate]. cbn [rbind] in H. apply Ok_inj in H. subst a.
    destruct (IH b eq_refl) as (K & V & P). cbn [mapM map fst snd dkeys]. rewrite (value_obj_back _ _ E). cbn [rbind]. rewrite V. simpl.
    split; [f_equal; assumption|]. split; [reflexivity|]. intros Ho. constructor; [eapply value_obj_pv; [eapply Ho; left; reflexivity|assumption]|]. apply P. intros; eapply Ho; right; eassumption.
Qed.
Lemma dict_objs_ok d : (forall k v, In (k, v) d -> option_value v) -> exists a, dict_objs d = Ok a.
Proof.
  unfold dict_objs. induction d as [|[k v] d IH]; intros H; cbn [mapM fst snd]; [eexists; reflexivity|].
  destruct (value_obj_ok v) as [o ->]; [eapply H; left; reflexivity|]. cbn [rbind]. destruct IH as [a ->]; [intros; eapply H; right; eassumption|]. eexists; reflexivity.
Qed.

(** ** columns *)
Definition cell_at (t : dtype) (col : list mobj) (p : nat) (c : list mobj) : Prop :=
  match c with
  | [x] => dt_name t <> TSpan /\ nth_error col p = Some x
  | [x; y] => dt_name t = TSpan /\ nth_error col (2 * p) = Some x /\ nth_error col (2 * p + 1) = Some y
  | _ => False
  end.
Definition field_value (h : heap) (n : nid) (f : pystr) : value := match dget (n_fieldsof h n) f with Some v => v | None => VNone end.
Lemma other_elems_one h v c : other_elems h v = Ok c -> exists x, c = [x].
Proof.
  unfold other_elems. intros H. destruct (py_len h v) as [[k|]|]; cbn [rbind] in H; [|discriminate|destruct v; discriminate].
  destruct (k =? 0); [apply Ok_inj in H; eauto|]. destruct v; try discriminate. destruct (span_str _); [apply Ok_inj in H; eauto|discriminate].
Qed.
Lemma encode_cell_width h offs t v c : encode_cell h offs (dt_name t) v = Ok c ->
  (exists x, c = [x] /\ dt_name t <> TSpan) \/ (exists x y, c = [x; y] /\ dt_name t = TSpan).
Proof.
  intros H. destruct (dt_name t); cbn [encode_cell] in H.
  all: try (left; destruct v; cbn [rbind] in H; try discriminate; try (apply Ok_inj in H; subst c; eexists; split; [reflexivity|discriminate]);
    match type of H with rbind ?r _ = _ => destruct r; [|discriminate]; apply Ok_inj in H; subst c; eexists; split; [reflexivity|discriminate] end; fail).
  - left. assert (H' : c = [MNil] \/ match value_elems h v with
             | Some r => (let* l := r in match l with [] => Ok [MNil] | _ => let* is := mapM (elem_i h) l in Ok [MArr (map MInt is)] end)
             | None => other_elems h v end = Ok c) by (destruct v; auto; left; apply Ok_inj in H; auto).
    destruct H' as [->|H']; [eexists; split; [reflexivity|discriminate]|]. destruct (value_elems h v) as [[l|]|]; try discriminate; [|apply other_elems_one in H'; destruct H' as [x ->]; eexists; split; [reflexivity|discriminate]]. cbn [rbind] in H'.
    destruct l as [|x l]; [apply Ok_inj in H'; subst c; eexists; split; [reflexivity|discriminate]|].
    destruct (mapM (elem_i h) (x :: l)); [|discriminate]. apply Ok_inj in H'; subst c; eexists; split; [reflexivity|discriminate].
  - right. destruct v; try discriminate; [apply Ok_inj in H; subst c; eexists; eexists; split; reflexivity|].
    destruct (offset_id offs start), (offset_id offs stop); try discriminate. apply Ok_inj in H; subst c; eexists; eexists; split; reflexivity.
  - left. assert (H' : c = [MNil] \/ (let* a := value_left h v in let* ia := elem_i h a in let* b := value_right h v in let* ib := elem_i h b in
             Ok [MArr [MInt ia; MInt (ib - ia)]]) = Ok c) by (destruct v; auto; left; apply Ok_inj in H; auto).
    destruct H' as [->|H']; [eexists; split; [reflexivity|discriminate]|]. destruct (value_left h v); [|discriminate]. cbn [rbind] in H'.
    destruct (elem_i h a); [|discriminate]. cbn [rbind] in H'. destruct (value_right h v); [|discriminate]. cbn [rbind] in H'. destruct (elem_i h a1); [|discriminate].
    apply Ok_inj in H'; subst c; eexists; split; [reflexivity|discriminate].
Qed.
Lemma column_nth h offs t f ns : forall col, encode_column h offs (dt_name t) f ns = Ok col ->
  (forall p n, nth_error ns p = Some (Some n) -> exists c, encode_cell h offs (dt_name t) (field_value h n f) = Ok c /\ cell_at t col p c) /\
  (forall x, In x col -> exists n c, In (Some n) ns /\ encode_cell h offs (dt_name t) (field_value h n f) = Ok c /\ In x c).
Proof.
  induction ns as [|[n|] ns IH]; intros col H; cbn [encode_column] in H; [| |discriminate].
  - apply Ok_inj in H. subst col. split; [intros [|p] n; discriminate|intros x []].
  - fold (field_value h n f) in H. destruct (encode_cell h offs (dt_name t) (field_value h n f)) as [c|] eqn:Ec; [|discriminate]. cbn [rbind] in H.
    destruct (encode_column h offs (dt_name t) f ns) as [b|]; [|discriminate]. cbn [rbind] in H. apply Ok_inj in H. subst col.
    destruct (IH b eq_refl) as [I1 I2]. split.
    + intros [|p] m Hm; simpl in Hm.
      * injection Hm as <-. exists c. split; [assumption|]. destruct (encode_cell_width _ _ _ _ _ Ec) as [(x & -> & Hx)|(x & y & -> & Hx)]; simpl; auto.
      * destruct (I1 p m Hm) as (c' & E1 & E2). exists c'. split; [assumption|].
        destruct (encode_cell_width _ _ _ _ _ Ec) as [(x & -> & Hx)|(x & y & -> & Hx)]; destruct c' as [|x' [|y' [|]]]; simpl in E2 |- *; try contradiction; try tauto.
        destruct E2 as (E2 & E3 & E4). split; [assumption|]. rewrite !Nat.add_0_r in *. replace (p + S p)%nat with (S (p + p)) by lia.
        replace (S (p + p) + 1)%nat with (S (p + p + 1)) by lia. simpl. auto.
    + intros x Hx. apply in_app_iff in Hx. destruct Hx as [Hx|Hx]; [exists n, c; simpl; auto|]. destruct (I2 x Hx) as (m & c' & A & B & C). exists m, c'. simpl; auto.
Qed.

(** ** one cell there and back *)
Section Cell.
Variables (h : heap) (d : doc) (h1 : heap).
Hypothesis Wh : wf h.
Hypothesis Wh1 : wf h1.
Hypothesis Same : looks_same h h1.
Hypothesis Pos : forall k l p n, In (k, l) (d_layers d) -> at_pos h1 l p n -> node_i h1 n = Ok (Z.of_nat p).
Variables (texts : dict (pystr * list Z)) (bs : bases).
Hypothesis Bases : forall x l, dget (d_layers d) x = Some l -> exists first, dget bs x = Some (first, length (layer_iter h l)).
(** the node that stands for n after decoding *)
Definition moved (x : pystr) (n n' : nid) : Prop :=
  exists l p b, dget (d_layers d) x = Some l /\ at_pos h l p n /\ dget bs x = Some b /\ n' = node_at b p.

Lemma own_pos x n : own_node h d x n -> exists l p, dget (d_layers d) x = Some l /\ at_pos h l p n /\ node_i h1 n = Ok (Z.of_nat p) /\ (p < length (layer_iter h l))%nat.
Proof.
  intros (l & p & E & A). exists l, p. split; [assumption|]. split; [assumption|]. split.
  - eapply Pos; [eapply dget_In; eassumption|]. unfold at_pos. rewrite (same_iter _ _ Same). assumption.
  - apply nth_error_Some. unfold at_pos in A. congruence.
Qed.
Lemma target_pos first len p : (p < len)%nat -> target (first, len) (MInt (Z.of_nat p)) = Ok p.
Proof. intros H. unfold target. cbn [as_num rbind snd]. rewrite py_index_nonneg by lia. rewrite Nat2Z.id. reflexivity. Qed.
Lemma own_list x l ns : dget (d_layers d) x = Some l -> Forall (own_node h d x) ns -> exists b ps, dget bs x = Some b /\
  mapM (elem_i h1) (map Some ns) = Ok (map Z.of_nat ps) /\ mapM (target b) (map MInt (map Z.of_nat ps)) = Ok ps /\
  Forall2 (moved x) ns (map (node_at b) ps).
Proof.
  intros El F. destruct (Bases x l El) as [first Eb]. exists (first, length (layer_iter h l)).
  induction F as [|n ns Hn F IH].
  - exists []. repeat split; auto; constructor.
  - destruct IH as (ps & _ & E1 & E2 & E3). destruct (own_pos x n Hn) as (l' & p & El' & Ap & Np & Lp). assert (l' = l) by congruence. subst l'.
    exists (p :: ps). split; [assumption|]. cbn [map mapM elem_i]. rewrite Np, E1. cbn [rbind]. rewrite target_pos by assumption. cbn [rbind]. rewrite E2.
    split; [reflexivity|]. split; [reflexivity|]. constructor; [|assumption]. exists l, p, (first, length (layer_iter h l)). auto.
Qed.
Lemma own_span_iter x a b : own_span h d x a b -> exists ns, nodespan_iter h a b = Ok ns /\ ns <> [] /\ Forall (own_node h d x) ns.
Proof.
  intros (l & p & q & El & Pa & Pb & Hpq). unfold at_pos in Pa, Pb. rewrite iter_wf in Pa, Pb by assumption. apply nth_map_some in Pa, Pb.
  destruct (nodespan_spec h l p q a b (wf_layers h Wh l) Pa Pb Hpq) as (_ & E & _). exists (run (content h l) p q). split; [assumption|].
  assert (Hq : (q < length (content h l))%nat) by (apply nth_error_Some; congruence). split.
  - intros E0. apply (f_equal (@List.length nid)) in E0. unfold run in E0. rewrite firstn_length, skipn_length in E0. cbn [List.length] in E0. lia.
  - apply Forall_forall. intros n Hn. unfold run in Hn.
    assert (Hn' : In n (content h l)).
    { rewrite <- (firstn_skipn p). apply in_or_app. right. rewrite <- (firstn_skipn (S q - p) (skipn p (content h l))). apply in_or_app. left. assumption. }
    apply In_nth_error in Hn'. destruct Hn' as [i Hi]. exists l, i. split; [assumption|]. unfold at_pos. rewrite iter_wf by assumption. rewrite nth_error_map, Hi. reflexivity.
Qed.

Lemma cell_round t ov offs c col p :
  type_encodable t -> (forall v, ov = Some v -> value_ok h d t v) ->
  (forall x, targets_layer t x -> In x (dkeys (d_layers d))) ->
  (forall x, targets_text t x -> exists txt, dget (d_texts d) x = Some txt /\ dget texts x = Some (txt, offs)) ->
  (forall tn tx a b, ov = Some (VSpan tn tx a b) -> In a offs /\ In b offs) ->
  encode_cell h1 offs (dt_name t) (match ov with Some v => v | None => VNone end) = Ok c -> cell_at t col p c ->
  Forall python_value c /\ exists ov', decode_cell texts bs (base_type t) col p = Ok ov' /\ same_value h moved t ov ov'.
Proof.
  intros (NE & NU & [O1 O2] & _) Hv HL HT Hoff Ec Hc.
  (* absent or None, not a span *)
  assert (Hnil : dt_name t <> TSpan -> c = [MNil] -> exists ov', decode_cell texts bs (base_type t) col p = Ok ov' /\ ov' = None).
  { intros Hns ->. destruct Hc as [_ Hc]. eexists. split; [|reflexivity]. unfold decode_cell, base_type. cbn [dt_name].
    destruct (dt_name t) eqn:En; try contradiction; try congruence; rewrite ?Hc; try reflexivity;
    (destruct O1 as [x Hx]; [simpl; auto|]); unfold opt_name, dgetE; cbn [dt_opts]; rewrite Hx; cbn [rbind];
    (assert (Hin : In x (dkeys (d_layers d))) by (apply HL; split; [rewrite En; simpl; auto|assumption]));
    apply dmem_In in Hin; unfold dmem in Hin; (destruct (dget (d_layers d) x) as [l|] eqn:El; [|discriminate]);
    destruct (Bases x l El) as [first ->]; reflexivity. }
  assert (Hbase : forall x, targets_layer t x -> exists l first, dget (d_layers d) x = Some l /\ dget bs x = Some (first, length (layer_iter h l))).
  { intros x Hx. pose proof (HL x Hx) as Hin. apply dmem_In in Hin. unfold dmem in Hin. destruct (dget (d_layers d) x) as [l|] eqn:El; [|discriminate].
    destruct (Bases x l El) as [first E]. eauto. }
  destruct ov as [v|].
  2: { (* absent *)
    destruct (dt_name t) eqn:En; cbn [encode_cell] in Ec; try discriminate;
    try (apply Ok_inj in Ec; subst c; split; [repeat constructor|]; destruct Hnil as (ov' & E & ->); [congruence|reflexivity|]; exists None; split; [exact E|constructor]).
    apply Ok_inj in Ec. subst c. split; [repeat constructor|]. exists None. split; [|constructor]. cbn [cell_at] in Hc. destruct Hc as (_ & E1 & E2).
    unfold decode_cell, base_type. cbn [dt_name]. rewrite En. destruct (O2 eq_refl) as [x Hx]. unfold opt_name, dgetE. cbn [dt_opts]. rewrite Hx. cbn [rbind].
    destruct (HT x (conj En Hx)) as (txt & _ & ->). rewrite E1, E2. reflexivity. }
  destruct (Hv v eq_refl) as [Hns|i Hi|b Hi|b Ht Hb|b Ht|x Ht|x Ht Hb|cx txt a b Ht Hx Ha Hb|x n Ht Hx Ho|x ns Ht Hx Ho|x a b Ht Hx Ho|x a b Ht Hx Ho].
  - (* None *)
    assert (c = [MNil]) by (destruct (dt_name t); cbn [encode_cell] in Ec; try contradiction; try discriminate; apply Ok_inj in Ec; congruence). subst c.
    split; [repeat constructor|]. destruct Hnil as (ov' & E & ->); [assumption|reflexivity|]. exists None. split; [exact E|constructor].
  - assert (c = [MInt i] /\ dt_name t <> TSpan) as [-> Hns] by (simpl in Hi; destruct Hi as [Hi|[Hi|[]]]; rewrite <- Hi in Ec |- *; cbn [encode_cell] in Ec; apply Ok_inj in Ec; split; congruence).
    split; [repeat constructor|]. destruct Hc as [_ Hc]. exists (Some (VInt i)). split; [|constructor; assumption].
    unfold decode_cell, base_type. cbn [dt_name]. destruct Hi as [Hi|[Hi|[]]]; rewrite <- Hi; rewrite Hc; reflexivity.
  - assert (c = [MInt (if b then 1 else 0)] /\ dt_name t <> TSpan) as [-> Hns] by (simpl in Hi; destruct Hi as [Hi|[Hi|[]]]; rewrite <- Hi in Ec |- *; cbn [encode_cell] in Ec; apply Ok_inj in Ec; split; congruence).
    split; [repeat constructor|]. destruct Hc as [_ Hc]. exists (Some (VInt (if b then 1 else 0))). split; [|constructor; assumption].
    unfold decode_cell, base_type. cbn [dt_name]. destruct Hi as [Hi|[Hi|[]]]; rewrite <- Hi; rewrite Hc; reflexivity.
  - rewrite Ht in Ec. cbn [encode_cell] in Ec. apply Ok_inj in Ec. subst c. split; [repeat constructor; assumption|]. destruct Hc as [_ Hc].
    exists (Some (VFloat b)). split; [|constructor; assumption]. unfold decode_cell, base_type. cbn [dt_name]. rewrite Ht, Hc. reflexivity.
  - rewrite Ht in Ec. cbn [encode_cell] in Ec. apply Ok_inj in Ec. subst c. split; [repeat constructor; assumption|]. destruct Hc as [_ Hc].
    exists (Some (VBool b)). split; [|constructor; assumption]. unfold decode_cell, base_type. cbn [dt_name]. rewrite Ht, Hc. reflexivity.
  - rewrite Ht in Ec. cbn [encode_cell] in Ec. apply Ok_inj in Ec. subst c. split; [repeat constructor; assumption|]. destruct Hc as [_ Hc].
    exists (Some (VStr x)). split; [|constructor; assumption]. unfold decode_cell, base_type. cbn [dt_name]. rewrite Ht, Hc. reflexivity.
  - rewrite Ht in Ec. cbn [encode_cell] in Ec. apply Ok_inj in Ec. subst c. split; [repeat constructor; assumption|]. destruct Hc as [_ Hc].
    exists (Some (VBytes x)). split; [|constructor; assumption]. unfold decode_cell, base_type. cbn [dt_name]. rewrite Ht, Hc. reflexivity.
  - (* span *)
    pose proof Ht as [En Eo]. rewrite En in Ec. cbn [encode_cell] in Ec. destruct (Hoff cx txt a b eq_refl) as [Ia Ib].
    destruct (offset_id_nth offs a Ia) as (ia & Ea & Na). destruct (offset_id_nth offs b Ib) as (ib & Eb & Nb). rewrite Ea, Eb in Ec. apply Ok_inj in Ec. subst c.
    split; [repeat constructor|]. cbn [cell_at] in Hc. destruct Hc as (_ & E1 & E2). exists (Some (VSpan cx txt a b)). split; [|constructor; assumption].
    unfold decode_cell, base_type. cbn [dt_name]. rewrite En. unfold opt_name, dgetE. cbn [dt_opts]. rewrite Eo. cbn [rbind].
    destruct (HT cx Ht) as (txt' & Et & ->). assert (txt' = txt) by congruence. subst txt'. rewrite E1, E2.
    unfold offset_at. cbn [as_num rbind]. destruct (Z.ltb_spec (Z.of_nat ia) 0); [lia|]. rewrite Nat2Z.id, Na. cbn [rbind].
    destruct (Z.ltb_spec (Z.of_nat ib) 0); [lia|]. rewrite Nat2Z.id, Nb. cbn [rbind]. destruct (Z.leb_spec a b); [reflexivity|lia].
  - (* node *)
    rewrite Ht in Ec. cbn [encode_cell] in Ec. destruct (own_pos x n Ho) as (l & q & El & Ap & Np & Lp). rewrite Np in Ec. cbn [rbind] in Ec. apply Ok_inj in Ec. subst c.
    split; [repeat constructor|]. destruct Hc as [_ Hc]. destruct (Bases x l El) as [first Eb]. exists (Some (VNode (node_at (first, length (layer_iter h l)) q))).
    unfold decode_cell, base_type. cbn [dt_name]. rewrite Ht. pose proof Hx as [_ Eo]. unfold opt_name, dgetE. cbn [dt_opts]. rewrite Eo. cbn [rbind]. rewrite Eb. cbn [rbind].
    rewrite Hc. rewrite target_pos by assumption. split; [reflexivity|]. econstructor; [assumption|eassumption|]. exists l, q, (first, length (layer_iter h l)). auto.
  - (* list *)
    rewrite Ht in Ec. cbn [encode_cell value_elems rbind] in Ec. destruct (Hbase x Hx) as (l & first & El & Eb). destruct ns as [|n0 ns].
    + apply Ok_inj in Ec. subst c. split; [repeat constructor|]. destruct Hnil as (ov' & E & ->); [congruence|reflexivity|]. exists None. split; [exact E|constructor; assumption].
    + destruct (own_list x l (n0 :: ns) El Ho) as (b & ps & Eb' & M1 & M2 & M3). cbn [map] in Ec, M1. rewrite M1 in Ec. cbn [rbind] in Ec. apply Ok_inj in Ec. subst c.
      split; [repeat constructor; apply Forall_forall; intros o Hin; apply in_map_iff in Hin; destruct Hin as (z & <- & _); constructor|]. destruct Hc as [_ Hc].
      exists (Some (VNodeList (map Some (map (node_at b) ps)))). unfold decode_cell, base_type. cbn [dt_name]. rewrite Ht. pose proof Hx as [_ Eo]. unfold opt_name, dgetE. cbn [dt_opts]. rewrite Eo. cbn [rbind].
      rewrite Eb'. cbn [rbind]. rewrite Hc, M2. cbn [rbind]. split; [rewrite map_map; reflexivity|]. change (Some n0 :: map Some ns) with (map Some (n0 :: ns)). econstructor; [assumption|eassumption|discriminate|assumption].
  - (* span as list *)
    destruct (own_span_iter x a b Ho) as (ns & En & Hne & Hf). rewrite Ht in Ec. cbn [encode_cell value_elems] in Ec.
    rewrite (same_nodespan h h1 a b ns Wh Wh1 Same En) in Ec. cbn [rbind] in Ec. destruct (Hbase x Hx) as (l & first & El & Eb).
    destruct (own_list x l ns El Hf) as (b' & ps & Eb' & M1 & M2 & M3). destruct ns as [|n0 ns]; [congruence|]. cbn [map] in Ec, M1. rewrite M1 in Ec. cbn [rbind] in Ec. apply Ok_inj in Ec. subst c.
    split; [repeat constructor; apply Forall_forall; intros o Hin; apply in_map_iff in Hin; destruct Hin as (z & <- & _); constructor|]. destruct Hc as [_ Hc].
    exists (Some (VNodeList (map Some (map (node_at b') ps)))). unfold decode_cell, base_type. cbn [dt_name]. rewrite Ht. pose proof Hx as [_ Eo]. unfold opt_name, dgetE. cbn [dt_opts]. rewrite Eo. cbn [rbind].
    rewrite Eb'. cbn [rbind]. rewrite Hc, M2. cbn [rbind]. split; [rewrite map_map; reflexivity|]. econstructor; [assumption|eassumption|eassumption|assumption].
  - (* node span *)
    destruct Ho as (l & pa & pb & El & Pa & Pb & Hpq). destruct (Bases x l El) as [first Eb].
    destruct (own_pos x a (ex_intro _ l (ex_intro _ pa (conj El Pa)))) as (l1 & pa' & El1 & Pa' & Na & La). assert (l1 = l) by congruence. subst l1.
    destruct (own_pos x b (ex_intro _ l (ex_intro _ pb (conj El Pb)))) as (l1 & pb' & El2 & Pb' & Nb & Lb). assert (l1 = l) by congruence. subst l1.
    assert (Hi : forall p n, at_pos h l p n -> node_i h1 n = Ok (Z.of_nat p)).
    { intros q n Hq. eapply Pos; [eapply dget_In; exact El|]. unfold at_pos. rewrite (same_iter _ _ Same). assumption. }
    assert (pa' = pa) by (pose proof (Hi _ _ Pa) as H; rewrite Na in H; apply Ok_inj in H; lia). subst pa'.
    assert (pb' = pb) by (pose proof (Hi _ _ Pb) as H; rewrite Nb in H; apply Ok_inj in H; lia). subst pb'.
    rewrite Ht in Ec. cbn [encode_cell value_left value_right rbind elem_i] in Ec. rewrite Na, Nb in Ec. cbn [rbind] in Ec. apply Ok_inj in Ec. subst c.
    split; [repeat constructor|]. destruct Hc as [_ Hc].
    exists (Some (VNodeSpan (node_at (first, length (layer_iter h l)) pa) (node_at (first, length (layer_iter h l)) pb))).
    unfold decode_cell, base_type. cbn [dt_name]. rewrite Ht. pose proof Hx as [_ Eo]. unfold opt_name, dgetE. cbn [dt_opts]. rewrite Eo. cbn [rbind]. rewrite Eb. cbn [rbind].
    rewrite Hc. cbn [as_num rbind]. rewrite target_pos by assumption. cbn [rbind]. replace (Z.of_nat pa + (Z.of_nat pb - Z.of_nat pa)) with (Z.of_nat pb) by lia. rewrite target_pos by assumption. cbn [rbind].
    destruct (Nat.leb_spec pa pb); [|lia]. split; [reflexivity|]. econstructor; [assumption|eassumption| |]; [exists l, pa|exists l, pb]; exists (first, length (layer_iter h l)); auto.
Qed.
End Cell.

(** ** reading back one layer *)
Definition based (fs : dict dtype) : dict dtype := map (fun ft => (fst ft, base_type (snd ft))) fs.
Lemma dkeys_based fs : dkeys (based fs) = dkeys fs.
Proof. unfold based, dkeys. rewrite map_map. reflexivity. Qed.
Lemma dget_based fs f : dget (based fs) f = match dget fs f with Some t => Some (base_type t) | None => None end.
Proof. induction fs as [|[g t] fs IH]; simpl; [reflexivity|]. destruct (str_eqb f g); auto. Qed.
Lemma decode_row_ok texts bs p (Q : pystr -> dtype -> option value -> Prop) fs : forall cols,
  Forall2 (fun ft col => exists o, decode_cell texts bs (base_type (snd ft)) col p = Ok o /\ Q (fst ft) (snd ft) o) fs cols ->
  NoDup (dkeys fs) ->
  exists row, decode_row texts bs (based fs) cols p = Ok row /\ (forall f, In f (dkeys row) -> In f (dkeys fs)) /\
    NoDup (dkeys row) /\ forall f t, dget fs f = Some t -> Q f t (dget row f).
Proof.
  induction fs as [|[f t] fs IH]; intros cols F ND; inversion F as [|? col ? cols' (o & E & q) F']; subst.
  - exists []. simpl. repeat split; try tauto; try constructor. intros; discriminate.
  - simpl in ND. apply NoDup_cons_iff in ND. destruct ND as [Nf ND]. destruct (IH cols' F' ND) as (row & Er & K & NR & V). cbn [fst snd] in *.
    simpl. rewrite E. cbn [rbind]. fold (based fs). rewrite Er. cbn [rbind]. eexists. split; [reflexivity|].
    assert (Nr : ~ In f (dkeys row)) by (intros Hin; apply Nf, K, Hin).
    assert (Nd : dget row f = None) by (apply dget_None; assumption). destruct o as [v|].
    + split; [intros g [<-|Hg]; [left; reflexivity|right; apply K, Hg]|]. split; [constructor; assumption|]. intros g u. simpl. destruct (str_eqb_spec g f) as [->|Hne]; [intros [= <-]; assumption|apply V].
    + split; [intros g Hg; right; apply K, Hg|]. split; [assumption|]. intros g u. destruct (str_eqb_spec g f) as [->|Hne]; [intros [= <-]; rewrite Nd; assumption|apply V].
Qed.

(** ** the heap after building *)
Lemma decode_nodes_nth texts bs l fs nc ns : decode_nodes texts bs l fs nc = Ok ns ->
  length ns = Z.to_nat (fst nc) /\ forall p x, nth_error ns p = Some x ->
    exists row, decode_row texts bs fs (snd nc) p = Ok row /\ x = mkNode row (Z.of_nat p) (Some l).
Proof.
  unfold decode_nodes. intros H. pose proof (mapM_Ok_length _ _ H) as Hl. rewrite seq_length in Hl. split; [assumption|].
  intros p x Hx. apply mapM_Forall2 in H. assert (Hp : (p < Z.to_nat (fst nc))%nat) by (rewrite <- Hl; apply nth_error_Some; congruence).
  assert (Hs : nth_error (seq 0 (Z.to_nat (fst nc))) p = Some p).
  { rewrite (nth_error_nth' _ 0%nat) by (rewrite seq_length; assumption). rewrite seq_nth by assumption. reflexivity. }
  destruct (Forall2_nth _ _ _ _ _ H Hs) as (y & Hy & E). assert (y = x) by congruence. subst y.
  destruct (decode_row texts bs fs (snd nc) p) as [row|]; [|discriminate]. exists row. split; [reflexivity|]. apply Ok_inj in E. auto.
Qed.
Definition new_layer (k : pystr) (fs : dict dtype) (f0 : nid) (ns : list node) : layer :=
  mkLayer k fs (map Some (seq f0 (length ns))) (zlen ns) (defaults_of fs).
Lemma build_index texts bs sch : forall l0 first data nodes, build_nodes texts bs l0 sch data = Ok nodes -> length data = length sch ->
  length (build_layers first sch nodes) = length sch /\
  (forall i k fs, nth_error sch i = Some (k, fs) -> exists nc ns f0, nth_error data i = Some nc /\ nth_error nodes i = Some ns /\
     decode_nodes texts bs (l0 + i)%nat fs nc = Ok ns /\ nth_error (layer_bases first sch (map fst data)) i = Some (k, (f0, Z.to_nat (fst nc))) /\
     (first <= f0)%nat /\ nth_error (build_layers first sch nodes) i = Some (new_layer k fs f0 ns) /\
     (f0 - first + length ns <= length (List.concat nodes))%nat /\
     forall p, (p < length ns)%nat -> nth_error (List.concat nodes) (f0 - first + p) = nth_error ns p) /\
  (forall j, (j < length (List.concat nodes))%nat -> exists i k fs ns f0 p, nth_error sch i = Some (k, fs) /\
     nth_error nodes i = Some ns /\ nth_error (build_layers first sch nodes) i = Some (new_layer k fs f0 ns) /\ (first <= f0)%nat /\
     (p < length ns)%nat /\ j = (f0 - first + p)%nat).
Proof.
  induction sch as [|[k fs] sch IH]; intros l0 first data nodes H L; destruct data as [|nc data]; try discriminate; cbn [build_nodes] in H.
  - apply Ok_inj in H. subst nodes. simpl. split; [reflexivity|]. split; [intros [|i]; discriminate|intros; lia].
  - destruct (decode_nodes texts bs l0 fs nc) as [ns|] eqn:En; [|discriminate]. cbn [rbind] in H.
    destruct (build_nodes texts bs (S l0) sch data) as [q|] eqn:Eq; [|discriminate]. cbn [rbind] in H. apply Ok_inj in H. subst nodes.
    pose proof (decode_nodes_nth _ _ _ _ _ _ En) as [Ln _].
    destruct (IH (S l0) (first + length ns)%nat data q Eq) as (I1 & I2 & I3); [simpl in L; lia|].
    cbn [build_layers layer_bases map]. rewrite <- Ln. split; [simpl; rewrite I1; reflexivity|]. cbn [List.concat]. split.
    + intros [|i] k' fs' Hi; cbn [nth_error] in Hi |- *.
      * injection Hi as <- <-. exists nc, ns, first. rewrite Nat.add_0_r, Nat.sub_diag, <- Ln. repeat split; auto; [rewrite app_length; lia|].
        intros p Hp. simpl. apply nth_error_app1. assumption.
      * destruct (I2 i k' fs' Hi) as (nc' & ns' & f0 & A1 & A2 & A3 & A4 & A5 & A6 & A7 & A8). exists nc', ns', f0. rewrite Nat.add_succ_r.
        repeat split; auto; [lia|rewrite app_length; lia|]. intros p Hp. rewrite nth_error_app2 by lia. rewrite <- A8 by assumption. f_equal. lia.
    + intros j Hj. rewrite app_length in Hj. destruct (Nat.ltb_spec j (length ns)) as [Hlt|Hge].
      * exists 0%nat, k, fs, ns, first, j. cbn [nth_error]. repeat split; auto. lia.
      * destruct (I3 (j - length ns)%nat) as (i & k' & fs' & ns' & f0 & p & B1 & B2 & B3 & B4 & B5 & B6); [lia|].
        exists (S i), k', fs', ns', f0, p. cbn [nth_error]. repeat split; auto; lia.
Qed.
Lemma build_inv h p h2 d' : build h p = (h2, Ok d') -> exists nodes,
  build_nodes (map text_entry (pd_texts p)) (layer_bases (h_nnext h) (pd_schema p) (map fst (pd_layers p))) (h_lnext h) (pd_schema p) (pd_layers p) = Ok nodes /\
  h2 = alloc_layers (alloc_nodes h (List.concat nodes)) (build_layers (h_nnext h) (pd_schema p) nodes) /\
  d' = mkDoc (pd_props p) (map (fun kt => (fst kt, fst (snd kt))) (map text_entry (pd_texts p)))
             (combine (map fst (pd_schema p)) (seq (h_lnext h) (length (pd_schema p)))).
Proof.
  unfold build. destruct (check_fields _ _) as [[]|]; [|discriminate]. cbn [rbind]. destruct (build_nodes _ _ _ _ _) as [nodes|]; [|discriminate].
  intros H. injection H as <- <-. exists nodes. auto.
Qed.
Lemma build_checked h p h2 d' : build h p = (h2, Ok d') -> check_fields (layer_bases (h_nnext h) (pd_schema p) (map fst (pd_layers p))) (pd_schema p) = Ok tt.
Proof. unfold build. destruct (check_fields _ _) as [[]|]; [reflexivity|discriminate]. Qed.
Lemma nth_nth {A} (l : list A) i d x : nth_error l i = Some x -> nth i l d = x.
Proof. intros H. apply nth_error_nth. assumption. Qed.
Lemma live_map l : live (map Some l) = l.
Proof. apply live_map_some. Qed.

Section Built.
Variables (h : heap) (p : pdoc) (h2 : heap) (d' : doc).
Hypothesis W : wf h.
Hypothesis B : build h p = (h2, Ok d').
Hypothesis L : length (pd_layers p) = length (pd_schema p).
Hypothesis K : forall k fs, In (k, fs) (pd_schema p) -> NoDup (dkeys fs).

Lemma built_untouched : untouched h h2.
Proof.
  destruct (build_inv _ _ _ _ B) as (nodes & _ & -> & _). unfold untouched. cbn [alloc_layers alloc_nodes h_node h_layer h_nnext h_lnext].
  split; [intros n Hn; destruct (Nat.ltb_spec n (h_nnext h)); [reflexivity|lia]|].
  split; [intros l Hl; destruct (Nat.ltb_spec l (h_lnext h)); [reflexivity|lia]|]. lia.
Qed.
(** where everything is *)
Lemma built_layer i k fs : nth_error (pd_schema p) i = Some (k, fs) -> exists nc f0,
  nth_error (pd_layers p) i = Some nc /\ (h_nnext h <= f0)%nat /\
  nth_error (layer_bases (h_nnext h) (pd_schema p) (map fst (pd_layers p))) i = Some (k, (f0, Z.to_nat (fst nc))) /\
  h_layer h2 (h_lnext h + i)%nat = mkLayer k fs (map Some (seq f0 (Z.to_nat (fst nc)))) (Z.of_nat (Z.to_nat (fst nc))) (defaults_of fs) /\
  nth_error (d_layers d') i = Some (k, (h_lnext h + i)%nat) /\
  (f0 + Z.to_nat (fst nc) <= h_nnext h2)%nat /\
  forall q, (q < Z.to_nat (fst nc))%nat -> exists row,
    decode_row (map text_entry (pd_texts p)) (layer_bases (h_nnext h) (pd_schema p) (map fst (pd_layers p))) fs (snd nc) q = Ok row /\
    h_node h2 (f0 + q)%nat = mkNode row (Z.of_nat q) (Some (h_lnext h + i)%nat).
Proof.
  destruct (build_inv _ _ _ _ B) as (nodes & E & -> & ->). intros Hi.
  destruct (build_index _ _ _ _ (h_nnext h) _ _ E L) as (I1 & I2 & _). destruct (I2 i k fs Hi) as (nc & ns & f0 & A1 & A2 & A3 & A4 & A5 & A6 & A7 & A8).
  destruct (decode_nodes_nth _ _ _ _ _ _ A3) as [Ln Hn]. exists nc, f0. split; [assumption|]. split; [assumption|]. split; [assumption|].
  cbn [alloc_layers alloc_nodes h_node h_layer h_nnext h_lnext d_layers]. rewrite <- Ln.
  assert (Hlt : (i < length (pd_schema p))%nat) by (apply nth_error_Some; congruence).
  split; [|split; [|split]].
  - destruct (Nat.ltb_spec (h_lnext h + i) (h_lnext h)); [lia|]. replace (h_lnext h + i - h_lnext h)%nat with i by lia. rewrite (nth_nth _ _ _ _ A6). reflexivity.
  - rewrite (@nth_error_nth' (pystr * lid) _ _ (nil, 0%nat)) by (rewrite combine_length, map_length, seq_length; lia).
    rewrite combine_nth by (rewrite map_length, seq_length; reflexivity). rewrite seq_nth by assumption. f_equal. f_equal.
    apply nth_nth. rewrite nth_error_map, Hi. reflexivity.
  - lia.
  - intros q Hq. destruct (nth_error ns q) as [x|] eqn:Ex; [|apply nth_error_None in Ex; lia]. destruct (Hn q x Ex) as (row & Er & ->). exists row. split; [assumption|].
    destruct (Nat.ltb_spec (f0 + q) (h_nnext h)); [lia|]. replace (f0 + q - h_nnext h)%nat with (f0 - h_nnext h + q)%nat by lia.
    apply nth_nth. rewrite A8 by assumption. assumption.
Qed.
Lemma built_new_node n : (h_nnext h <= n < h_nnext h2)%nat -> exists i k fs nc f0 q, nth_error (pd_schema p) i = Some (k, fs) /\ nth_error (pd_layers p) i = Some nc /\
  nth_error (layer_bases (h_nnext h) (pd_schema p) (map fst (pd_layers p))) i = Some (k, (f0, Z.to_nat (fst nc))) /\ (q < Z.to_nat (fst nc))%nat /\ n = (f0 + q)%nat.
Proof.
  destruct (build_inv _ _ _ _ B) as (nodes & E & -> & _). cbn [alloc_layers alloc_nodes h_nnext].
  intros Hn. destruct (build_index _ _ _ _ (h_nnext h) _ _ E L) as (_ & I2 & I3). destruct (I3 (n - h_nnext h)%nat) as (i & k & fs & ns & f0 & q & C1 & C2 & C3 & C4 & C5 & C6); [lia|].
  destruct (I2 i k fs C1) as (nc & ns' & f0' & A1 & A2 & A3 & A4 & A5 & A6 & A7 & A8). assert (ns' = ns) by congruence. subst ns'.
  rewrite C3 in A6. unfold new_layer in A6. injection A6 as A6. destruct (decode_nodes_nth _ _ _ _ _ _ A3) as [Ln _].
  assert (f0' = f0).
  { destruct (length ns) eqn:Ens; [lia|]. simpl in A6. congruence. }
  subst f0'. exists i, k, fs, nc, f0, q. repeat split; auto; lia.
Qed.
Lemma built_lnext : h_lnext h2 = (h_lnext h + length (pd_schema p))%nat.
Proof.
  destruct (build_inv _ _ _ _ B) as (nodes & E & -> & _). cbn [alloc_layers alloc_nodes h_lnext].
  destruct (build_index _ _ _ _ (h_nnext h) _ _ E L) as (I1 & _). rewrite I1. reflexivity.
Qed.
Lemma built_old_node n : ~ (h_nnext h <= n < h_nnext h2)%nat -> h_node h2 n = h_node h n.
Proof.
  destruct (build_inv _ _ _ _ B) as (nodes & E & -> & _). cbn [alloc_layers alloc_nodes h_node h_nnext]. intros Hn.
  destruct (Nat.ltb_spec n (h_nnext h)); [reflexivity|]. rewrite nth_overflow by lia. reflexivity.
Qed.
Lemma built_old_layer l : ~ (h_lnext h <= l < h_lnext h2)%nat -> h_layer h2 l = h_layer h l.
Proof.
  destruct (build_inv _ _ _ _ B) as (nodes & E & -> & _). cbn [alloc_layers alloc_nodes h_layer h_lnext]. intros Hn.
  destruct (Nat.ltb_spec l (h_lnext h)); [reflexivity|]. rewrite nth_overflow by lia. reflexivity.
Qed.
Lemma built_new_layer l : (h_lnext h <= l < h_lnext h2)%nat -> exists i k fs, l = (h_lnext h + i)%nat /\ nth_error (pd_schema p) i = Some (k, fs).
Proof.
  rewrite built_lnext. intros Hl. destruct (nth_error (pd_schema p) (l - h_lnext h)) as [[k fs]|] eqn:E; [|apply nth_error_None in E; lia].
  exists (l - h_lnext h)%nat, k, fs. split; [lia|assumption].
Qed.
Lemma built_content i k fs nc f0 : nth_error (pd_schema p) i = Some (k, fs) -> nth_error (pd_layers p) i = Some nc ->
  nth_error (layer_bases (h_nnext h) (pd_schema p) (map fst (pd_layers p))) i = Some (k, (f0, Z.to_nat (fst nc))) ->
  content h2 (h_lnext h + i)%nat = seq f0 (Z.to_nat (fst nc)).
Proof.
  intros Hi Hd Hb. destruct (built_layer i k fs Hi) as (nc' & f0' & A1 & _ & A2 & A3 & _). assert (nc' = nc) by congruence. subst nc'.
  assert (f0' = f0) by congruence. subst f0'. unfold content, l_nodesof. rewrite A3. cbn [l_nodes]. apply live_map.
Qed.
Lemma nth_seq a n i x : nth_error (seq a n) i = Some x <-> (i < n)%nat /\ x = (a + i)%nat.
Proof.
  split.
  - intros H. assert (Hi : (i < n)%nat) by (rewrite <- (seq_length n a); apply nth_error_Some; congruence). split; [assumption|].
    apply nth_nth with (d := 0%nat) in H. rewrite seq_nth in H by assumption. auto.
  - intros [Hi ->]. rewrite (nth_error_nth' _ 0%nat) by (rewrite seq_length; assumption). rewrite seq_nth by assumption. reflexivity.
Qed.
Lemma built_wf : wf h2.
Proof.
  assert (Hcoll : forall n l, n_collof h2 n = Some l -> (~ (h_nnext h <= n < h_nnext h2)%nat /\ n_collof h n = Some l /\ ~ (h_lnext h <= l)%nat) \/
    exists i k fs nc f0 q, nth_error (pd_schema p) i = Some (k, fs) /\ nth_error (pd_layers p) i = Some nc /\
      nth_error (layer_bases (h_nnext h) (pd_schema p) (map fst (pd_layers p))) i = Some (k, (f0, Z.to_nat (fst nc))) /\
      (q < Z.to_nat (fst nc))%nat /\ n = (f0 + q)%nat /\ l = (h_lnext h + i)%nat /\ n_idof h2 n = Z.of_nat q).
  { intros n l Hc. assert (D : (h_nnext h <= n < h_nnext h2)%nat \/ ~ (h_nnext h <= n < h_nnext h2)%nat) by lia. destruct D as [D|D].
    - right. destruct (built_new_node n D) as (i & k & fs & nc & f0 & q & A1 & A2 & A3 & A4 & ->). exists i, k, fs, nc, f0, q.
      destruct (built_layer i k fs A1) as (nc' & f0' & B1 & _ & B2 & _ & _ & _ & B3). assert (nc' = nc) by congruence. subst nc'. assert (f0' = f0) by congruence. subst f0'.
      destruct (B3 q A4) as (row & _ & En). unfold n_collof, n_idof in *. rewrite En in *. cbn [n_coll n_id] in *. repeat split; auto. congruence.
    - left. unfold n_collof in *. rewrite built_old_node in Hc by assumption. split; [assumption|]. split; [assumption|]. intros Hl.
      destruct (ok_coll _ _ (wf_layers h W l) n Hc) as (i & _ & Hi). rewrite (wf_fresh_l h W l Hl) in Hi. destruct i; discriminate. }
  assert (Dl : forall l, (h_lnext h <= l < h_lnext h2)%nat \/ ~ (h_lnext h <= l < h_lnext h2)%nat) by (intros; lia). split.
  - intros l. destruct (Dl l) as [D|D].
    + destruct (built_new_layer l D) as (i & k & fs & -> & Hi). destruct (built_layer i k fs Hi) as (nc & f0 & A1 & A2 & A3 & A4 & A5 & A6 & A7). split.
      * rewrite (built_content i k fs nc f0 Hi A1 A3). unfold l_numof, zlen. rewrite A4, seq_length. reflexivity.
      * intros j n Hj. unfold l_nodesof in Hj. rewrite A4 in Hj. cbn [l_nodes] in Hj. rewrite nth_error_map in Hj. destruct (nth_error (seq f0 _) j) as [x|] eqn:Es; [|discriminate].
        injection Hj as <-. apply nth_seq in Es. destruct Es as [Hj ->]. destruct (A7 j Hj) as (row & _ & En). unfold n_idof, n_collof. rewrite En. auto.
      * intros n Hn. destruct (Hcoll _ _ Hn) as [(_ & _ & Hl)|(i' & k' & fs' & nc' & f0' & q & C1 & C2 & C3 & C4 & C5 & C6 & C7)]; [lia|].
        assert (i' = i) by lia. subst i'. assert (nc' = nc) by congruence. subst nc'. rewrite A3 in C3. injection C3 as C3 C3'. subst f0'. exists q. split; [assumption|].
        unfold l_nodesof. rewrite A4. cbn [l_nodes]. rewrite nth_error_map. assert (Es : nth_error (seq f0 (Z.to_nat (fst nc))) q = Some n) by (apply nth_seq; auto). rewrite Es. reflexivity.
    + assert (Hold : forall n, n_collof h n = Some l -> h_node h2 n = h_node h n).
      { intros n Hn. apply built_old_node. intros Hr. rewrite (wf_fresh_n h W n) in Hn by lia. discriminate. }
      destruct (wf_layers h W l) as [O1 O2 O3]. split.
      * unfold l_numof, content, l_nodesof in *. rewrite built_old_layer by assumption. assumption.
      * intros j n Hj. unfold l_nodesof in *. rewrite built_old_layer in Hj by assumption. destruct (O2 j n Hj) as [E1 E2]. unfold n_idof, n_collof in *. rewrite Hold; auto.
      * intros n Hn. destruct (Hcoll _ _ Hn) as [(_ & Hc & _)|(i' & k' & fs' & nc' & f0' & q & C1 & C2 & C3 & C4 & C5 & C6 & C7)].
        -- unfold n_idof, l_nodesof in *. rewrite built_old_layer by assumption. rewrite (Hold n Hc). apply O3. assumption.
        -- exfalso. apply D. rewrite built_lnext. assert (i' < length (pd_schema p))%nat by (apply nth_error_Some; congruence). lia.
  - intros n Hn. destruct built_untouched as (_ & _ & U & _). unfold n_collof. rewrite built_old_node by lia. apply (wf_fresh_n h W). lia.
  - intros l Hl. destruct built_untouched as (_ & _ & _ & U). unfold l_nodesof. rewrite built_old_layer by lia. apply (wf_fresh_l h W). lia.
  - intros l. destruct (Dl l) as [D|D].
    + destruct (built_new_layer l D) as (i & k & fs & -> & Hi). destruct (built_layer i k fs Hi) as (nc & f0 & _ & _ & _ & A4 & _). rewrite A4. reflexivity.
    + rewrite built_old_layer by assumption. apply W.
  - intros l. destruct (Dl l) as [D|D].
    + destruct (built_new_layer l D) as (i & k & fs & -> & Hi). destruct (built_layer i k fs Hi) as (nc & f0 & _ & _ & _ & A4 & _). rewrite A4. cbn [l_fields]. eapply K. eapply nth_error_In. eassumption.
    + rewrite built_old_layer by assumption. apply W.
Qed.
Lemma built_at_pos i k fs nc f0 : nth_error (pd_schema p) i = Some (k, fs) -> nth_error (pd_layers p) i = Some nc ->
  nth_error (layer_bases (h_nnext h) (pd_schema p) (map fst (pd_layers p))) i = Some (k, (f0, Z.to_nat (fst nc))) ->
  forall q n, at_pos h2 (h_lnext h + i)%nat q n <-> (q < Z.to_nat (fst nc))%nat /\ n = (f0 + q)%nat.
Proof.
  intros Hi Hd Hb q n. unfold at_pos. rewrite (iter_wf _ _ built_wf), (built_content i k fs nc f0 Hi Hd Hb), nth_error_map. 
  split.
  - intros H. apply nth_seq. change (option_map Some (@nth_error nat (seq f0 (Z.to_nat (fst nc))) q) = Some (Some n)) in H.
    remember (@nth_error nat (seq f0 (Z.to_nat (fst nc))) q) as o eqn:Eo. destruct o as [m|]; [|discriminate]. injection H as <-. reflexivity.
  - intros H. apply nth_seq in H. change (option_map Some (@nth_error nat (seq f0 (Z.to_nat (fst nc))) q) = Some (Some n)). rewrite H. reflexivity.
Qed.
End Built.
