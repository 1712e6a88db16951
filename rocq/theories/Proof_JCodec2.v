(** Layers and references read by the Java port. *)
From Verif Require Import PyBase PyBaseFacts Model_Text Model_Heap Model_Layer Model_Types Model_Msgpack Model_Document Model_Codec Model_JUnits Model_JLayer Model_JStream Model_JCodec
  Spec_Layer Spec_Types Spec_Msgpack Spec_Document Spec_Codec Spec_JUnits Spec_JCodec Proof_Heap Proof_Layer Proof_Layer2 Proof_Layer3 Proof_History Proof_Layer4 Proof_Types
  Proof_Text Proof_Msgpack Proof_Document Proof_Layout Proof_Codec Proof_Codec2 Proof_JStream Proof_JUnits Proof_JCodec.
Local Open Scope Z_scope.
Local Arguments s : simpl never.

(** ** types *)
Lemma jname_type t ts : type_string t = Ok ts -> jname_from ts = JT t.
Proof. intros H. destruct t; cbn [type_string] in H; try discriminate; apply Ok_inj in H; subst ts; vm_compute; reflexivity. Qed.
Lemma arg_name_ok t jt key x : java_type t jt -> dget (dt_opts t) key = Some (VStr x) -> arg_name jt key = Ok x.
Proof.
  intros [_ F] H. destruct (dget_Forall2 (fun _ v w => java_option v w) _ _ F key _ H) as (w & E & J). unfold arg_name. rewrite E. inversion J; subst. reflexivity.
Qed.
Lemma jkey_ok t jt : type_encodable t -> java_type t jt -> exists key, jkey jt = Ok key /\ forall c, targets_text t c -> key = c.
Proof.
  intros (NE & _ & [_ O2] & _) J. unfold jkey. pose proof J as [En _]. rewrite En. destruct (dt_name t) eqn:Et; try (exists []; split; [reflexivity|intros c [E _]; congruence]); try contradiction.
  destruct (O2 eq_refl) as [x Hx]. exists x. split; [apply (arg_name_ok t jt (s "context") x J Hx)|]. intros c [_ Hc]. congruence.
Qed.

(** the value that replaces a number or placeholder *)
Definition is_ref (jt : jdtype) : bool := match ty_name jt with JT TNodeRef | JT TNodeRefMany | JT TNodeRefSpan => true | _ => false end.
Definition resolved (sizes : dict nat) (jt : jdtype) (o : option jv) : res (option jv) :=
  match o with
  | None => Ok None
  | Some v => if is_ref jt then let* x := arg_name jt (s "layer") in let* w := jreplace x (dget sizes x) v in Ok (Some w) else Ok (Some v)
  end.

Lemma one_inv x b : concatM pack [x] = Ok b -> pack x = Ok b.
Proof. intros H. apply concatM_cons in H. destruct H as (p & q & E & H & ->). apply Ok_inj in H. subst q. rewrite app_nil_r. assumption. Qed.
Lemma two_inv x y b : concatM pack [x; y] = Ok b -> exists p q, pack x = Ok p /\ pack y = Ok q /\ b = p ++ q.
Proof. intros H. apply concatM_cons in H. destruct H as (p & q & E & H & ->). apply one_inv in H. eauto. Qed.
Lemma jread_ints_pack l : forall b rest, concatM pack (map MInt l) = Ok b -> Forall int_range l -> jread_ints (length l) (b ++ rest) = Ok (l, rest).
Proof.
  induction l as [|x l IH]; intros b rest H F; cbn [map length jread_ints] in *; [apply Ok_inj in H; subst b; reflexivity|]. inversion F; subst.
  apply concatM_cons in H. destruct H as (p1 & p2 & E1 & E2 & ->). rewrite <- app_assoc, (mu_int_pack _ _ _ E1) by assumption. cbn [rbind]. rewrite (IH _ _ E2) by assumption. reflexivity.
Qed.
Lemma cell_nil texts t key b rest : t <> TSpan -> pack MNil = Ok b -> jcell_opt texts t key (b ++ rest) = Ok (None, rest).
Proof. intros H E. unfold jcell_opt. rewrite (mu_try_nil_nil _ _ E). cbn [rbind]. destruct t; try reflexivity. contradiction. Qed.
Lemma cell_some texts t key x b rest v r : python_value x -> pack x = Ok b -> x <> MNil -> jcell texts t key (b ++ rest) = Ok (v, r) -> jcell_opt texts t key (b ++ rest) = Ok (Some v, r).
Proof. intros P E N H. unfold jcell_opt. rewrite (mu_try_nil_pack x b rest P E N). cbn [rbind]. rewrite H. reflexivity. Qed.
Lemma int_add_ok a b : int_range (a + b) -> int_add a b = a + b.
Proof.
  intros R. unfold int_range in R. unfold int_add, to_signed. change (2 ^ 32) with 4294967296. change (2 ^ (8 * 4 - 1)) with 2147483648. change (2 ^ (8 * 4)) with 4294967296.
  destruct (Z.le_gt_cases 0 (a + b)) as [P|P].
  - rewrite Z.mod_small by lia. destruct (Z.ltb_spec (a + b) 2147483648); lia.
  - rewrite <- (Z.mod_add (a + b) 1 4294967296) by lia. rewrite Z.mod_small by lia. destruct (Z.ltb_spec (a + b + 1 * 4294967296) 2147483648); lia.
Qed.

Section JCell.
Variables (h : heap) (d : doc) (h1 : heap).
Hypothesis Wh : wf h.
Hypothesis Wh1 : wf h1.
Hypothesis Same : looks_same h h1.
Hypothesis Pos : forall k l p n, In (k, l) (d_layers d) -> at_pos h1 l p n -> node_i h1 n = Ok (Z.of_nat p).
Hypothesis Small : forall k l, In (k, l) (d_layers d) -> zlen (layer_iter h l) < 2147483648.
Variables (texts : dict (list N * list Z)) (sizes : dict nat).
Hypothesis Sizes : forall x l, dget (d_layers d) x = Some l -> dget sizes x = Some (length (layer_iter h l)).

Lemma small_pos x l p : dget (d_layers d) x = Some l -> (p < length (layer_iter h l))%nat -> int_range (Z.of_nat p).
Proof. intros E L. apply dget_In in E. apply Small in E. unfold zlen, int_range in *. lia. Qed.
Lemma jtarget_ok n p : (p < n)%nat -> jtarget (Some n) (Z.of_nat p) = Ok p.
Proof.
  intros H. unfold jtarget. destruct (Z.leb_spec 0 (Z.of_nat p)); [|lia]. destruct (Z.ltb_spec (Z.of_nat p) (Z.of_nat n)); [|lia]. cbn [andb]. rewrite Nat2Z.id. reflexivity.
Qed.
Lemma pos_i x l p n : dget (d_layers d) x = Some l -> at_pos h l p n -> node_i h1 n = Ok (Z.of_nat p) /\ (p < length (layer_iter h l))%nat.
Proof.
  intros E A. split.
  - eapply Pos; [eapply dget_In; eassumption|]. unfold at_pos. rewrite (same_iter _ _ Same). assumption.
  - apply nth_error_Some. unfold at_pos in A. congruence.
Qed.
Lemma jown_list x l ns : dget (d_layers d) x = Some l -> Forall (own_node h d x) ns -> exists ps,
  mapM (elem_i h1) (map Some ns) = Ok (map Z.of_nat ps) /\ Forall2 (fun n p => at_pos h l p n) ns ps /\
  mapM (jtarget (Some (length (layer_iter h l)))) (map Z.of_nat ps) = Ok ps /\ Forall int_range (map Z.of_nat ps).
Proof.
  intros El F. induction F as [|n ns (l' & p & El' & Ap) F IH]; [exists []; repeat split; constructor|]. destruct IH as (ps & E1 & E2 & E3 & E4).
  assert (l' = l) by congruence. subst l'. destruct (pos_i x l p n El Ap) as [Ni Lp]. exists (p :: ps). cbn [map mapM elem_i]. rewrite Ni, E1. cbn [rbind]. rewrite jtarget_ok by assumption. cbn [rbind]. rewrite E3.
  repeat split; constructor; try assumption. eapply small_pos; eassumption.
Qed.
Lemma pv_ints l : Forall python_value (map MInt l).
Proof. apply Forall_forall. intros o Hin. apply in_map_iff in Hin. destruct Hin as (z & <- & _). constructor. Qed.

Lemma cell_java t jt ov offs c key :
  type_encodable t -> java_type t jt -> jkey jt = Ok key -> (forall v, ov = Some v -> value_ok h d t v) ->
  (forall x, targets_layer t x -> In x (dkeys (d_layers d))) ->
  (forall x, targets_text t x -> exists txt, dget (d_texts d) x = Some txt /\ dget texts x = Some (utf16 txt, map (upos txt) offs)) ->
  (forall tn tx a b, ov = Some (VSpan tn tx a b) -> In a offs /\ In b offs) -> (dt_name t = TSpan -> zlen offs <= 2147483648) ->
  (forall i, dt_name t = TI32 -> ov = Some (VInt i) -> int_range i) -> (forall i, dt_name t = TI64 -> ov = Some (VInt i) -> long_range i) ->
  (forall x, dt_name t = TBinary -> ov = Some (VBytes x) -> False) ->
  encode_cell h1 offs (dt_name t) (match ov with Some v => v | None => VNone end) = Ok c ->
  forall b, concatM pack c = Ok b -> zlen b < 2147483648 ->
  exists o, (forall rest, jcell_opt texts (dt_name t) key (b ++ rest) = Ok (o, rest)) /\ exists o', resolved sizes jt o = Ok o' /\ java_value h d t ov o'.
Proof.
  intros TE JT Hk Hv HL HT Hoff Hlen R32 R64 RB Ec b Hb Sb. destruct (jkey_ok t jt TE JT) as (key' & Hk' & Kc). rewrite Hk in Hk'. apply Ok_inj in Hk'. subst key'.
  destruct TE as (NE & NU & [O1 O2] & _). pose proof JT as [En _].
  assert (Hl : forall x, targets_layer t x -> exists l, dget (d_layers d) x = Some l /\ arg_name jt (s "layer") = Ok x /\ is_ref jt = true).
  { intros x Hx. pose proof (HL x Hx) as Hin. apply dmem_In in Hin. unfold dmem in Hin. destruct (dget (d_layers d) x) as [l|] eqn:El; [|discriminate]. exists l. split; [reflexivity|].
    destruct Hx as [Hn Hx]. split; [exact (arg_name_ok t jt _ x JT Hx)|]. unfold is_ref. rewrite En. simpl in Hn. destruct Hn as [<-|[<-|[<-|[]]]]; reflexivity. }
  assert (Hnil : dt_name t <> TSpan -> c = [MNil] -> exists o, (forall rest, jcell_opt texts (dt_name t) key (b ++ rest) = Ok (o, rest)) /\ o = None).
  { intros Hns ->. exists None. split; [|reflexivity]. intros rest. apply one_inv in Hb. apply cell_nil; assumption. }
  destruct ov as [v|].
  2: { destruct (dt_name t) eqn:Et; cbn [encode_cell] in Ec; try discriminate;
    try (apply Ok_inj in Ec; subst c; destruct Hnil as (o & E & ->); [congruence|reflexivity|]; exists None; split; [exact E|]; exists None; split; [reflexivity|constructor]).
    apply Ok_inj in Ec. subst c. apply two_inv in Hb. destruct Hb as (p & q & E1 & E2 & ->). exists None. split; [|exists None; split; [reflexivity|constructor]]. intros rest. rewrite <- app_assoc. unfold jcell_opt. rewrite (mu_try_nil_nil _ _ E1). cbn [rbind].
    rewrite (mu_nil_pack _ _ E2). reflexivity. }
  assert (Plain : forall x w, c = [x] -> is_ref jt = false -> python_value x -> x <> MNil -> (forall b rest, pack x = Ok b -> zlen b < 2147483648 -> jcell texts (dt_name t) key (b ++ rest) = Ok (w, rest)) ->
    java_value h d t (Some v) (Some w) ->
    exists o, (forall rest, jcell_opt texts (dt_name t) key (b ++ rest) = Ok (o, rest)) /\ exists o', resolved sizes jt o = Ok o' /\ java_value h d t (Some v) o').
  { intros x w -> Hr Px Nx Hc Jv. apply one_inv in Hb. exists (Some w). split; [intros rest; eapply cell_some; eauto|]. exists (Some w). split; [|assumption]. unfold resolved. rewrite Hr. reflexivity. }
  destruct (Hv v eq_refl) as [Hns|i Hi|bo Hi|bo Ht Hbo|bo Ht|x Ht|x Ht Hbx|cx txt a e Ht Hx Ha Hbb|x n Ht Hx Ho|x ns Ht Hx Ho|x a e Ht Hx Ho|x a e Ht Hx Ho].
  - assert (c = [MNil]) by (destruct (dt_name t); cbn [encode_cell] in Ec; try contradiction; try discriminate; apply Ok_inj in Ec; congruence).
    destruct Hnil as (o & E & ->); [assumption|assumption|]. exists None. split; [exact E|]. exists None. split; [reflexivity|constructor].
  - assert (Er : is_ref jt = false) by (unfold is_ref; rewrite En; simpl in Hi; destruct Hi as [<-|[<-|[]]]; reflexivity).
    assert (c = [MInt i]) by (simpl in Hi; destruct Hi as [Hi|[Hi|[]]]; rewrite <- Hi in Ec; cbn [encode_cell] in Ec; apply Ok_inj in Ec; congruence). simpl in Hi. destruct Hi as [Hi|[Hi|[]]].
    + apply (Plain (MInt i) (JInt i)); try assumption; [constructor|discriminate| |constructor; [congruence|apply R32; congruence]]. intros b' rest Hp _. rewrite <- Hi. cbn [jcell]. rewrite (mu_int_pack _ _ _ Hp) by (apply R32; congruence). reflexivity.
    + apply (Plain (MInt i) (JLong i)); try assumption; [constructor|discriminate| |constructor; [congruence|apply R64; congruence]]. intros b' rest Hp _. rewrite <- Hi. cbn [jcell]. rewrite (mu_long_pack _ _ _ Hp) by (apply R64; congruence). reflexivity.
  - assert (Er : is_ref jt = false) by (unfold is_ref; rewrite En; simpl in Hi; destruct Hi as [<-|[<-|[]]]; reflexivity).
    assert (c = [MInt (if bo then 1 else 0)]) by (simpl in Hi; destruct Hi as [Hi|[Hi|[]]]; rewrite <- Hi in Ec; cbn [encode_cell] in Ec; apply Ok_inj in Ec; congruence). simpl in Hi. destruct Hi as [Hi|[Hi|[]]].
    + apply (Plain (MInt (if bo then 1 else 0)) (JInt (if bo then 1 else 0))); try assumption; [constructor|discriminate| |constructor; congruence]. intros b' rest Hp _. rewrite <- Hi. cbn [jcell].
      rewrite (mu_int_pack _ _ _ Hp) by (unfold int_range; destruct bo; lia). reflexivity.
    + apply (Plain (MInt (if bo then 1 else 0)) (JLong (if bo then 1 else 0))); try assumption; [constructor|discriminate| |constructor; congruence]. intros b' rest Hp _. rewrite <- Hi. cbn [jcell].
      rewrite (mu_long_pack _ _ _ Hp) by (unfold long_range; destruct bo; lia). reflexivity.
  - rewrite Ht in Ec. cbn [encode_cell] in Ec. apply Ok_inj in Ec. symmetry in Ec. apply (Plain (MFloat bo) (JDouble bo)); [assumption|unfold is_ref; rewrite En, Ht; reflexivity|constructor; assumption|discriminate| |constructor; assumption].
    intros b' rest Hp _. rewrite Ht. cbn [jcell]. rewrite (mu_double_pack _ _ _ Hp) by assumption. reflexivity.
  - rewrite Ht in Ec. cbn [encode_cell] in Ec. apply Ok_inj in Ec. symmetry in Ec. apply (Plain (MBool bo) (JBool bo)); [assumption|unfold is_ref; rewrite En, Ht; reflexivity|constructor; assumption|discriminate| |constructor; assumption].
    intros b' rest Hp _. rewrite Ht. cbn [jcell]. rewrite (mu_bool_pack _ _ _ Hp) by assumption. reflexivity.
  - rewrite Ht in Ec. cbn [encode_cell] in Ec. apply Ok_inj in Ec. symmetry in Ec. apply (Plain (MStr x) (JStr x)); [assumption|unfold is_ref; rewrite En, Ht; reflexivity|constructor; assumption|discriminate| |constructor; assumption].
    intros b' rest Hp Hs. rewrite Ht. cbn [jcell]. rewrite (mu_string_pack _ _ _ Hp Hs). reflexivity.
  - exfalso. eapply RB; [exact Ht|reflexivity].
  - (* span *)
    pose proof Ht as [Et Eo]. rewrite Et in Ec. cbn [encode_cell] in Ec. destruct (Hoff cx txt a e eq_refl) as [Ia Ib].
    destruct (offset_id_nth offs a Ia) as (ia & Ea & Na). destruct (offset_id_nth offs e Ib) as (ib & Eb & Nb). rewrite Ea, Eb in Ec. apply Ok_inj in Ec. subst c.
    assert (La : (ia < length offs)%nat) by (apply nth_error_Some; congruence). assert (Lb : (ib < length offs)%nat) by (apply nth_error_Some; congruence). specialize (Hlen Et). unfold zlen in Hlen.
    apply two_inv in Hb. destruct Hb as (p & q & E1 & E2 & ->). exists (Some (JSpan cx (upos txt a) (upos txt e))). split.
    + intros rest. rewrite <- app_assoc. eapply cell_some; [|exact E1|discriminate|]; [constructor|]. rewrite Et. cbn [jcell]. rewrite (mu_int_pack _ _ _ E1) by (unfold int_range; lia). cbn [rbind].
      rewrite (mu_int_pack _ _ _ E2) by (unfold int_range; lia). cbn [rbind]. rewrite (Kc cx Ht). destruct (HT cx Ht) as (txt' & Ex & ->). assert (txt' = txt) by congruence. subst txt'.
      unfold java_get. destruct (Z.leb_spec 0 (Z.of_nat ia)); [|lia]. rewrite Nat2Z.id, nth_error_map, Na. cbn [option_map rbind].
      destruct (Z.leb_spec 0 (Z.of_nat ib)); [|lia]. rewrite Nat2Z.id, nth_error_map, Nb. reflexivity.
    + eexists. split; [unfold resolved, is_ref; rewrite En, Et; reflexivity|]. constructor. assumption.
  - (* node *)
    destruct (Hl x Hx) as (l & El & An & Er). destruct Ho as (l' & p & El' & Ap). assert (l' = l) by congruence. subst l'. destruct (pos_i x l p n El Ap) as [Ni Lp].
    rewrite Ht in Ec. cbn [encode_cell] in Ec. rewrite Ni in Ec. cbn [rbind] in Ec. apply Ok_inj in Ec. subst c. apply one_inv in Hb. exists (Some (JInt (Z.of_nat p))). split.
    + intros rest. eapply cell_some; [|exact Hb|discriminate|]; [constructor|]. rewrite Ht. cbn [jcell]. rewrite (mu_int_pack _ _ _ Hb) by (eapply small_pos; eassumption). reflexivity.
    + exists (Some (JNode x p)). split; [unfold resolved; rewrite Er, An; cbn [rbind jreplace]; rewrite (Sizes x l El), jtarget_ok by assumption; reflexivity|]. econstructor; eassumption.
  - (* list *)
    destruct (Hl x Hx) as (l & El & An & Er). destruct ns as [|n0 ns].
    + rewrite Ht in Ec. cbn [encode_cell value_elems rbind map] in Ec. apply Ok_inj in Ec. destruct Hnil as (o & E & ->); [congruence|congruence|]. exists None. split; [exact E|]. exists None. split; [reflexivity|]. constructor. assumption.
    + destruct (jown_list x l (n0 :: ns) El Ho) as (ps & M1 & M2 & M3 & M4). rewrite Ht in Ec. cbn [encode_cell value_elems rbind map] in Ec. cbn [map] in M1. rewrite M1 in Ec. cbn [rbind] in Ec. apply Ok_inj in Ec. subst c.
      apply one_inv in Hb. exists (Some (JHold (map Z.of_nat ps))). split.
      * intros rest. eapply cell_some; [|exact Hb|discriminate|]; [constructor; apply pv_ints|]. rewrite Ht. cbn [jcell]. pose proof (arr_short _ _ Hb Sb) as Rs. destruct (arr_inv _ _ Hb) as (hd & b' & Hh & E & ->).
        rewrite <- app_assoc, (mu_array_pack _ _ _ Rs Hh). cbn [rbind]. unfold zlen. rewrite Nat2Z.id, map_length. rewrite (jread_ints_pack _ _ _ E M4). reflexivity.
      * exists (Some (JNodes x ps)). split.
        -- unfold resolved. rewrite Er, An. cbn [rbind jreplace]. rewrite (Sizes x l El). inversion M2; subst. cbn [map] in *. rewrite M3. reflexivity.
        -- change (Some (VNodeList (Some n0 :: map Some ns))) with (Some (VNodeList (map Some (n0 :: ns)))). eapply jw_many; try eassumption. discriminate.
  - (* span as list *)
    destruct (Hl x Hx) as (l & El & An & Er). destruct (own_span_iter h d Wh x a e Ho) as (ns & En' & Hne & Hf). rewrite Ht in Ec. cbn [encode_cell value_elems] in Ec.
    rewrite (same_nodespan h h1 a e ns Wh Wh1 Same En') in Ec. cbn [rbind] in Ec.
    destruct (jown_list x l ns El Hf) as (ps & M1 & M2 & M3 & M4). destruct ns as [|n0 ns]; [congruence|]. cbn [map] in Ec, M1. rewrite M1 in Ec. cbn [rbind] in Ec. apply Ok_inj in Ec. subst c.
    apply one_inv in Hb. exists (Some (JHold (map Z.of_nat ps))). split.
    + intros rest. eapply cell_some; [|exact Hb|discriminate|]; [constructor; apply pv_ints|]. rewrite Ht. cbn [jcell]. pose proof (arr_short _ _ Hb Sb) as Rs. destruct (arr_inv _ _ Hb) as (hd & b' & Hh & E & ->).
      rewrite <- app_assoc, (mu_array_pack _ _ _ Rs Hh). cbn [rbind]. unfold zlen. rewrite Nat2Z.id, map_length. rewrite (jread_ints_pack _ _ _ E M4). reflexivity.
    + exists (Some (JNodes x ps)). split.
      * unfold resolved. rewrite Er, An. cbn [rbind jreplace]. rewrite (Sizes x l El). inversion M2; subst. cbn [map] in *. rewrite M3. reflexivity.
      * eapply jw_coll; eassumption.
  - (* node span *)
    destruct (Hl x Hx) as (l & El & An & Er). destruct Ho as (l' & p & q & El' & Pa & Pb & Hpq). assert (l' = l) by congruence. subst l'.
    destruct (pos_i x l p a El Pa) as [Na La]. destruct (pos_i x l q e El Pb) as [Nb Lb]. pose proof (small_pos x l p El La) as Ra. pose proof (small_pos x l q El Lb) as Rb. unfold int_range in Ra, Rb.
    rewrite Ht in Ec. cbn [encode_cell value_left value_right rbind elem_i] in Ec. rewrite Na, Nb in Ec. cbn [rbind] in Ec. apply Ok_inj in Ec. subst c. apply one_inv in Hb.
    exists (Some (JHoldSpan (Z.of_nat p) (Z.of_nat q))). split.
    + intros rest. eapply cell_some; [|exact Hb|discriminate|]; [constructor; repeat constructor|]. rewrite Ht. cbn [jcell]. pose proof (arr_short _ _ Hb Sb) as Rs. destruct (arr_inv _ _ Hb) as (hd & b' & Hh & E & ->).
      rewrite <- app_assoc, (mu_array_pack _ _ _ Rs Hh). cbn [rbind]. change (zlen [MInt (Z.of_nat p); MInt (Z.of_nat q - Z.of_nat p)] =? 2) with true. cbn [negb].
      apply two_inv in E. destruct E as (b1 & b2 & E1 & E2 & ->). rewrite <- app_assoc, (mu_int_pack _ _ _ E1) by (unfold int_range; lia). cbn [rbind]. rewrite (mu_int_pack _ _ _ E2) by (unfold int_range; lia). cbn [rbind].
      rewrite int_add_ok by (unfold int_range; lia). replace (Z.of_nat q - Z.of_nat p + Z.of_nat p) with (Z.of_nat q) by lia. reflexivity.
    + exists (Some (JNodeSpan x p q)). split.
      * unfold resolved. rewrite Er, An. cbn [rbind jreplace]. rewrite (Sizes x l El), jtarget_ok by assumption. cbn [rbind]. rewrite jtarget_ok by assumption. cbn [rbind]. destruct (Nat.leb_spec p q); [reflexivity|lia].
      * econstructor; eassumption.
Qed.
End JCell.

(** ** columns *)
Lemma put_column_len f : forall nodes col, length (put_column f nodes col) = length nodes.
Proof. induction nodes as [|n nodes IH]; intros [|[v|] col]; simpl; try reflexivity; rewrite IH; reflexivity. Qed.
Lemma put_column_nth f : forall nodes col p r o, nth_error nodes p = Some r -> nth_error col p = Some o ->
  exists r', nth_error (put_column f nodes col) p = Some r' /\ (forall g, g <> f -> dget r' g = dget r g) /\ dget r' f = match o with Some v => Some v | None => dget r f end.
Proof.
  induction nodes as [|n nodes IH]; intros [|c col] [|p] r o Hr Ho; try discriminate; cbn [nth_error] in *.
  - injection Hr as <-. injection Ho as <-. destruct c as [v|]; cbn [put_column nth_error].
    + exists (dset n f v). split; [reflexivity|]. split; [|rewrite dget_dset, str_eqb_refl; reflexivity]. intros g Hg. rewrite dget_dset. destruct (str_eqb g f) eqn:E; [apply str_eqb_eq in E; contradiction|reflexivity].
    + exists n. auto.
  - destruct (IH col p r o Hr Ho) as (r' & E & R). exists r'. destruct c; cbn [put_column nth_error]; auto.
Qed.
Section JColumns.
Variables (texts : dict (list N * list Z)) (ns : list nid).
Variable Q : pystr -> jdtype -> nid -> option jv -> Prop.
Definition column_reads (ef : efield) (ft : pystr * jdtype) : Prop :=
  exists key tn, ty_name (snd ft) = JT tn /\ jkey (snd ft) = Ok key /\ forall b, concatM pack (ef_col ef) = Ok b -> zlen b < 2147483648 ->
    exists os, (forall rest, jcells texts tn key (length ns) (b ++ rest) = Ok (os, rest)) /\ Forall2 (Q (fst ft) (snd ft)) ns os.
Lemma columns_java efs : forall jfs nodes b, Forall2 column_reads efs jfs -> NoDup (dkeys jfs) -> length nodes = length ns ->
  (forall r f, In r nodes -> In f (dkeys jfs) -> dget r f = None) -> pack_all (flat_map (fun f => [MBool false; MArr (ef_col f)]) efs) = Ok b -> zlen b < 2147483648 ->
  exists nodes', (forall rest, jread_columns texts jfs nodes (b ++ rest) = Ok (nodes', rest)) /\ length nodes' = length ns /\
    forall p n r, nth_error ns p = Some n -> nth_error nodes p = Some r -> exists r', nth_error nodes' p = Some r' /\
      (forall f, ~ In f (dkeys jfs) -> dget r' f = dget r f) /\ (forall f jt, In (f, jt) jfs -> Q f jt n (dget r' f)).
Proof.
  induction efs as [|ef efs IH]; intros jfs nodes b F ND Ln Emp Hb Sb; inversion F as [|? [f jt] ? jfs' (key & tn & En & Ek & Hc) F2]; subst; cbn [flat_map] in Hb.
  - apply Ok_inj in Hb. subst b. exists nodes. split; [reflexivity|]. split; [assumption|]. intros p n r _ Hr. exists r. split; [assumption|]. split; [reflexivity|intros f jt []].
  - cbn [app] in Hb. apply pack_all_cons in Hb. destruct Hb as (p1 & q1 & E1 & Hb & ->). apply pack_all_cons in Hb. destruct Hb as (p2 & q2 & E2 & Hb & ->). cbn [fst snd] in *.
    pose proof (short_l _ _ (short_r _ _ Sb)) as S2. pose proof (short_r _ _ (short_r _ _ Sb)) as S3. pose proof (arr_short _ _ E2 S2) as R. destruct (arr_inv _ _ E2) as (hd & b' & Hh & E & ->).
    destruct (Hc b' E (short_r _ _ S2)) as (os & Ho & Fo). unfold dkeys in ND. cbn [map fst] in ND. inversion ND as [|? ? Nf ND']; subst.
    destruct (IH jfs' (put_column f nodes os) q2 F2 ND' ltac:(rewrite put_column_len; assumption)) as (nodes' & Hr & Ln' & Hn); [|exact Hb|exact S3|].
    { intros r g Hin Hg. apply In_nth_error in Hin. destruct Hin as [p Hp]. assert (Lp : (p < length nodes)%nat) by (rewrite <- (put_column_len f nodes os); apply nth_error_Some; congruence).
      destruct (nth_error nodes p) as [r0|] eqn:E0; [|apply nth_error_None in E0; lia]. destruct (nth_error os p) as [o|] eqn:Eo.
      - destruct (put_column_nth f nodes os p r0 o E0 Eo) as (r' & E' & Eg & _). assert (r' = r) by congruence. subst r'. rewrite Eg by (intros ->; contradiction).
        eapply Emp; [eapply nth_error_In; exact E0|right; exact Hg].
      - apply nth_error_None in Eo. rewrite <- (Forall2_length _ _ _ Fo) in Eo. lia. }
    exists nodes'. split; [|split; [assumption|]].
    + intros rest. cbn [jread_columns]. rewrite <- !app_assoc. rewrite (mu_bool_pack _ _ _ E1). cbn [rbind]. rewrite (mu_array_pack _ _ _ R Hh). cbn [rbind]. rewrite Ek. cbn [rbind]. rewrite En, Ln, Ho. cbn [rbind]. apply Hr.
    + intros p n r Hp Hr0. destruct (Forall2_nth _ _ _ _ _ Fo Hp) as (o & Eo & Qo). destruct (put_column_nth f nodes os p r o Hr0 Eo) as (r1 & E1' & Eg & Ef).
      destruct (Hn p n r1 Hp E1') as (r' & Er' & K1 & K2). exists r'. split; [assumption|]. split.
      * intros g Hg. unfold dkeys in Hg. cbn [map fst In] in Hg. rewrite K1 by (intros X; apply Hg; right; exact X). apply Eg. intros ->. apply Hg. left. reflexivity.
      * intros g jt' [Hg|Hg]; [|apply K2; assumption]. injection Hg as <- <-. rewrite K1 by assumption. rewrite Ef. destruct o as [v|]; [assumption|].
        rewrite (Emp r f) by (try (eapply nth_error_In; exact Hr0); left; reflexivity). assumption.
Qed.
End JColumns.
(** one column *)
Lemma cells_java texts tn key (P : nid -> option jv -> Prop) h1 offs f ns : forall col b,
  (forall n c b, In n ns -> encode_cell h1 offs tn (field_value h1 n f) = Ok c -> concatM pack c = Ok b -> zlen b < 2147483648 ->
    exists o, (forall rest, jcell_opt texts tn key (b ++ rest) = Ok (o, rest)) /\ P n o) ->
  encode_column h1 offs tn f (map Some ns) = Ok col -> concatM pack col = Ok b -> zlen b < 2147483648 ->
  exists os, (forall rest, jcells texts tn key (length ns) (b ++ rest) = Ok (os, rest)) /\ Forall2 P ns os.
Proof.
  induction ns as [|n ns IH]; intros col b H Hc Hb Sb; cbn [map encode_column] in Hc.
  - apply Ok_inj in Hc. subst col. apply Ok_inj in Hb. subst b. exists []. split; [reflexivity|constructor].
  - fold (field_value h1 n f) in Hc. destruct (encode_cell h1 offs tn (field_value h1 n f)) as [c|] eqn:Ec; [|discriminate]. cbn [rbind] in Hc.
    destruct (encode_column h1 offs tn f (map Some ns)) as [q|] eqn:Eq; [|discriminate]. cbn [rbind] in Hc. apply Ok_inj in Hc. subst col.
    apply concatM_app in Hb. destruct Hb as (b1 & b2 & E1 & E2 & ->). destruct (H n c b1 (or_introl eq_refl) Ec E1 (short_l _ _ Sb)) as (o & Ho & Po).
    destruct (IH q b2 (fun n c b I => H n c b (or_intror I)) eq_refl E2 (short_r _ _ Sb)) as (os & Hos & Fos). exists (o :: os). split; [|constructor; assumption].
    intros rest. cbn [length jcells]. rewrite <- app_assoc, Ho. cbn [rbind]. rewrite Hos. reflexivity.
Qed.

(** ** references *)
Definition ref_named (jt : jdtype) : Prop := is_ref jt = true -> exists x, arg_name jt (s "layer") = Ok x.
Lemma resolve_field_ok sizes f jt nodes : ref_named jt -> (forall r, In r nodes -> exists o, resolved sizes jt (dget r f) = Ok o) ->
  exists nodes', jresolve_field sizes (f, jt) nodes = Ok nodes' /\
    Forall2 (fun r r' => resolved sizes jt (dget r f) = Ok (dget r' f) /\ (forall g, g <> f -> dget r' g = dget r g)) nodes nodes'.
Proof.
  intros RN H. unfold jresolve_field. cbn [fst snd].
  assert (K : is_ref jt = false -> Forall2 (fun r r' => resolved sizes jt (dget r f) = Ok (dget r' f) /\ (forall g, g <> f -> dget r' g = dget r g)) nodes nodes).
  { intros E. clear - E. induction nodes; constructor; [|assumption]. split; [|reflexivity]. unfold resolved. rewrite E. destruct (dget a f); reflexivity. }
  destruct (is_ref jt) eqn:E.
  - destruct (RN E) as [x Hx].
    assert (M : exists nodes', mapM (fun n => match dget n f with None => Ok n | Some v => let* w := jreplace x (dget sizes x) v in Ok (dset n f w) end) nodes = Ok nodes' /\
      Forall2 (fun r r' => resolved sizes jt (dget r f) = Ok (dget r' f) /\ (forall g, g <> f -> dget r' g = dget r g)) nodes nodes').
    { clear K. induction nodes as [|r nodes IH]; [exists []; split; [reflexivity|constructor]|]. destruct IH as (ns' & M & F); [intros r' Hr; apply H; right; assumption|].
      destruct (H r (or_introl eq_refl)) as [o Ho]. unfold resolved in Ho. cbn [mapM]. destruct (dget r f) as [v|] eqn:Ev.
      - rewrite E, Hx in Ho. cbn [rbind] in Ho. destruct (jreplace x (dget sizes x) v) as [w|] eqn:Ew; [|discriminate]. cbn [rbind] in *. exists (dset r f w :: ns'). rewrite M. split; [reflexivity|]. constructor; [|assumption]. split.
        + unfold resolved. rewrite Ev, E, Hx. cbn [rbind]. rewrite Ew, dget_dset, str_eqb_refl. reflexivity.
        + intros g Hg. rewrite dget_dset. destruct (str_eqb g f) eqn:Eg; [apply str_eqb_eq in Eg; contradiction|reflexivity].
      - cbn [rbind]. exists (r :: ns'). rewrite M. split; [reflexivity|]. constructor; [|assumption]. split; [rewrite Ev; reflexivity|reflexivity]. }
    destruct M as (nodes' & M & F). exists nodes'. split; [|exact F].
    unfold is_ref in E. destruct (ty_name jt) as [|[]|]; try discriminate; rewrite Hx; cbn [rbind]; exact M.
  - exists nodes. split; [|apply K; reflexivity]. unfold is_ref in E. destruct (ty_name jt) as [|[]|]; try discriminate; reflexivity.
Qed.
Lemma resolve_ok sizes jfs : forall nodes, NoDup (dkeys jfs) -> (forall f jt, In (f, jt) jfs -> ref_named jt) ->
  (forall r f jt, In r nodes -> In (f, jt) jfs -> exists o, resolved sizes jt (dget r f) = Ok o) ->
  exists nodes', jresolve sizes jfs nodes = Ok nodes' /\
    Forall2 (fun r r' => (forall f jt, In (f, jt) jfs -> resolved sizes jt (dget r f) = Ok (dget r' f)) /\ (forall f, ~ In f (dkeys jfs) -> dget r' f = dget r f)) nodes nodes'.
Proof.
  induction jfs as [|[f jt] jfs IH]; intros nodes ND RN H; cbn [jresolve].
  - exists nodes. split; [reflexivity|]. clear. induction nodes; constructor; [|assumption]. split; [intros f jt []|reflexivity].
  - unfold dkeys in ND. cbn [map fst] in ND. inversion ND as [|? ? Nf ND']; subst.
    destruct (resolve_field_ok sizes f jt nodes (RN f jt (or_introl eq_refl)) (fun r I => H r f jt I (or_introl eq_refl))) as (n1 & E1 & F1). rewrite E1. cbn [rbind].
    destruct (IH n1 ND' (fun g t I => RN g t (or_intror I))) as (n2 & E2 & F2).
    { intros r g t Hr Hg. apply In_nth_error in Hr. destruct Hr as [p Hp]. assert (Lp : (p < length nodes)%nat) by (rewrite (Forall2_length _ _ _ F1); apply nth_error_Some; congruence).
      destruct (nth_error nodes p) as [r0|] eqn:E0; [|apply nth_error_None in E0; lia]. destruct (Forall2_nth _ _ _ _ _ F1 E0) as (r1 & Er1 & _ & K). assert (r1 = r) by congruence. subst r1.
      rewrite K by (intros ->; apply Nf; apply (in_map fst) in Hg; exact Hg). apply (H r0 g t); [eapply nth_error_In; exact E0|right; exact Hg]. }
    exists n2. split; [exact E2|]. clear - F1 F2 Nf. revert n2 F2. induction F1 as [|r r1 nodes n1 [A1 A2] F IH]; intros n2 F2; inversion F2 as [|? r2 ? n2' [B1 B2] F2']; subst; constructor; [|apply IH; assumption]. split.
    + intros g t [Hg|Hg]; [injection Hg as <- <-; rewrite (B2 f) by exact Nf; exact A1|]. rewrite <- (A2 g) by (intros ->; apply Nf; apply (in_map fst) in Hg; exact Hg). apply B1. exact Hg.
    + intros g Hg. unfold dkeys in Hg. cbn [map fst In] in Hg. rewrite B2 by (intros X; apply Hg; right; exact X). apply A2. intros ->. apply Hg. left. reflexivity.
Qed.

(** ** the document *)
Lemma Forall_In {A} (P : A -> Prop) l x : Forall P l -> In x l -> P x.
Proof. rewrite Forall_forall. auto. Qed.

Section JDoc.
Variables (h : heap) (d : doc) (ex tv : bool) (h1 : heap) (ed : edoc) (offsets : dict (list Z)).
Hypothesis D : doc_ok h d.
Hypothesis E : codec_encode h d ex tv = (h1, Ok ed).
Hypothesis RD : java_readable h d.
Hypothesis Ec : compile h d ex tv = (h1, Ok offsets).
Hypothesis Ft : Forall2 (fun kt ke => fst ke = fst kt /\ exists o, dget offsets (fst kt) = Some o /\ snd ke = text_compile (snd kt) o) (d_texts d) (ed_texts ed).
Hypothesis Fparts : forall k parts, In (k, parts) (ed_texts ed) -> zlen parts < 2147483648.
Notation jtexts := (map jentry (ed_texts ed)).
Definition doc_sizes : dict nat := map (fun kl => (fst kl, length (layer_iter h (snd kl)))) (d_layers d).
Definition same_types (fs : dict dtype) (jfs : dict jdtype) : Prop := Forall2 (fun ft fj => fst fj = fst ft /\ java_type (snd ft) (snd fj)) fs jfs.
Definition slot (l : lid) (f : pystr) (jt : jdtype) (n : nid) (o : option jv) : Prop :=
  exists o', resolved doc_sizes jt o = Ok o' /\ forall t, dget (l_fields (h_layer h l)) f = Some t -> java_value h d t (dget (n_fieldsof h n) f) o'.

Lemma sizes_dget x l : dget (d_layers d) x = Some l -> dget doc_sizes x = Some (length (layer_iter h l)).
Proof. unfold doc_sizes. induction (d_layers d) as [|[k l'] ls IH]; cbn [map dget fst snd]; [discriminate|]. destruct (str_eqb x k); [intros H; injection H as ->; reflexivity|apply IH]. Qed.
Lemma jtexts_dget c txt : dget (d_texts d) c = Some txt -> exists offs, dget offsets c = Some offs /\ dget jtexts c = Some (utf16 txt, map (upos txt) offs) /\ zlen offs <= 2147483648.
Proof.
  intros H. destruct (dget_Forall2 (fun k t y => exists o, dget offsets k = Some o /\ y = text_compile t o) _ _ Ft c txt H) as (parts & Ep & o & Eo & ->). exists o. split; [assumption|].
  destruct (compile_offsets h d ex tv h1 offsets (do_wf h d D) (do_known h d D) Ec) as [_ Ho]. destruct (Ho c txt H) as (q & Eq & Hq). assert (o = sorted_offsets txt q) by congruence. subst o.
  assert (Fq : Forall (fun z => 0 <= z <= zlen txt) q) by (apply Forall_forall; intros z Hz; apply Hq in Hz; eapply span_bounds; eassumption). split.
  - pose proof (jentry_offsets c txt q Fq) as J. unfold jentry in J. cbn [fst snd] in J. injection J as J1 J2.
    assert (M : forall ts : dict (list pystr), dget (map jentry ts) c = match dget ts c with Some p => Some (utf16 (List.concat p), 0 :: unit_offsets 0 p) | None => None end).
    { induction ts as [|[k p] ts IH]; cbn [map jentry dget fst snd]; [reflexivity|]. destruct (str_eqb c k); [reflexivity|apply IH]. }
    rewrite M, Ep, J1, J2. reflexivity.
  - apply dget_In in Ep. apply Fparts in Ep. destruct (segmentation txt q Fq) as [_ S2]. rewrite <- S2. unfold zlen in *.
    assert (Ls : forall l z, length (seg_offsets z l) = Datatypes.S (length l)) by (clear; induction l as [|y l IH]; intros z; cbn [seg_offsets length]; [reflexivity|rewrite IH; reflexivity]). rewrite Ls. lia.
Qed.

Lemma field_java k l f t jt ef : In (k, l) (d_layers d) -> In (f, t) (l_fields (h_layer h l)) -> encode_field h1 offsets l f t = Ok ef -> java_type t jt ->
  column_reads jtexts (content h l) (slot l) ef (f, jt).
Proof.
  intros Hl Hf Hef JT. destruct (encode_field_inv _ _ _ _ _ _ Hef) as (_ & _ & _ & offs & Uo & Hcol).
  destruct (compile_keeps h d ex tv h1 _ (do_wf h d D) (do_known h d D) Ec) as (W1 & S & P).
  assert (Dcl : declared h d k f t) by (exists l; auto). destruct (refs_ok h d ex tv h1 ed E k f t Dcl) as [RL RT]. pose proof (do_types h d D k f t Dcl) as TE.
  assert (Hdt : dget (l_fields (h_layer h l)) f = Some t) by (apply dget_nodup; [apply (wf_schema h (do_wf h d D))|assumption]).
  destruct (jkey_ok t jt TE JT) as (key & Hk & _). exists key, (dt_name t). cbn [fst snd]. split; [apply JT|]. split; [assumption|]. intros b Hb Sb.
  rewrite (same_iter _ _ S), (iter_wf _ _ (do_wf h d D)) in Hcol. eapply cells_java; [|exact Hcol|exact Hb|exact Sb]. intros n c b' Hn Hc Hb' Sb'.
  assert (Hdn : doc_node h d k l n) by (split; [assumption|]; rewrite (iter_wf _ _ (do_wf h d D)); apply in_map; assumption).
  unfold field_value in Hc. rewrite (same_fields _ _ S) in Hc.
  destruct (cell_java h d h1 (do_wf h d D) W1 S (fun k l p n => P _ k l p n eq_refl) (jr_nodes h d RD) jtexts doc_sizes sizes_dget t jt (dget (n_fieldsof h n) f) offs c key TE JT Hk) with (b := b') as (o & Ho & o' & Ro & Jo); try assumption.
  - intros v Hv. eapply (do_values h d D); eassumption.
  - intros x Hx. pose proof (RT x Hx) as Hin. apply dmem_In in Hin. unfold dmem in Hin. destruct (dget (d_texts d) x) as [txt|] eqn:Ex; [|discriminate]. exists txt. split; [reflexivity|].
    destruct (jtexts_dget x txt Ex) as (o & Eo & Et & _). rewrite (Uo x Hx) in Eo. injection Eo as ->. assumption.
  - intros tn tx a b0 Hv. pose proof (do_values h d D k l n f _ t Hdn Hv Hdt) as V. inversion V as [| | | | | | |? ? ? ? Tt Tx| | | |]; subst.
    destruct (compile_offsets h d ex tv h1 offsets (do_wf h d D) (do_known h d D) Ec) as [_ Ho]. destruct (Ho tn tx Tx) as (q & Eq & Hq).
    rewrite (Uo tn Tt) in Eq. injection Eq as ->. split; apply sorted_offsets_In; right; right; apply Hq; exists k, l; (split; [assumption|]);
    exists n, f, t, tn, tx, a, b0; repeat split; auto; try apply Hdn; apply Tt.
  - intros Et. destruct TE as (_ & _ & [_ O2] & _). destruct (O2 Et) as [x Hx]. assert (Tx : targets_text t x) by (split; assumption).
    pose proof (RT x Tx) as Hin. apply dmem_In in Hin. unfold dmem in Hin. destruct (dget (d_texts d) x) as [txt|] eqn:Ex; [|discriminate].
    destruct (jtexts_dget x txt Ex) as (o & Eo & _ & Lo). rewrite (Uo x Tx) in Eo. injection Eo as ->. assumption.
  - intros i Et Hv. eapply (jr_i32 h d RD); eassumption.
  - intros i Et Hv. eapply (jr_i64 h d RD); eassumption.
  - intros x Et Hv. eapply (jr_bytes h d RD); eassumption.
  - exists o. split; [assumption|]. exists o'. split; [assumption|]. intros t' Ht'. assert (t' = t) by congruence. subst t'. assumption.
Qed.
Lemma same_types_keys fs jfs : same_types fs jfs -> dkeys jfs = dkeys fs.
Proof. apply Forall2_dkeys. Qed.
(** a layer as it is read, before references are put in *)
Definition rows_read (l : lid) (jfs : dict jdtype) (nodes : list (dict jv)) : Prop :=
  length nodes = length (layer_iter h l) /\
  forall p n, at_pos h l p n -> exists r, nth_error nodes p = Some r /\ (forall f, ~ In f (dkeys jfs) -> dget r f = None) /\ (forall f jt, In (f, jt) jfs -> slot l f jt n (dget r f)).
Lemma layer_java k l el jfs b : In (k, l) (d_layers d) -> encode_layer h1 offsets (k, l) = Ok el -> same_types (l_fields (h_layer h l)) jfs ->
  section (layer_objs el) = Ok b -> zlen b < 2147483648 -> exists nodes, (forall rest, jread_layer jtexts jfs (b ++ rest) = Ok (nodes, rest)) /\ rows_read l jfs nodes.
Proof.
  intros Hl Hel ST Hb Sb. destruct (encode_layer_inv _ _ _ _ _ Hel) as (_ & En & Fe). destruct (compile_keeps h d ex tv h1 _ (do_wf h d D) (do_known h d D) Ec) as (W1 & S & P).
  rewrite (same_schema _ _ S) in Fe. destruct (section_inv _ _ Hb) as (nb & body & kk & Hn & Hbody & -> & ->). unfold layer_objs in Hbody. apply pack_all_cons in Hbody. destruct Hbody as (p1 & p2 & E1 & E2 & ->).
  assert (Enum : el_num el = zlen (content h l)).
  { rewrite En. rewrite (ok_num _ _ (wf_layers h1 W1 l)). pose proof (same_iter _ _ S l) as Si. rewrite !iter_wf in Si by (assumption || apply (do_wf h d D)). apply map_some_inj in Si. rewrite Si. reflexivity. }
  assert (Lc : length (layer_iter h l) = length (content h l)) by (rewrite (iter_wf _ _ (do_wf h d D)), map_length; reflexivity).
  pose proof (jr_nodes h d RD k l Hl) as Sm. unfold zlen in Sm. rewrite Lc in Sm.
  pose proof (short_r _ _ Sb) as Sbody. pose proof (short_r _ _ Sbody) as S2.
  assert (FC : Forall2 (column_reads jtexts (content h l) (slot l)) (el_fields el) jfs).
  { apply Forall2_by_nth; [transitivity (length (l_fields (h_layer h l))); [symmetry; eapply Forall2_length; exact Fe|eapply Forall2_length; exact ST]|].
    intros i ef [f jt] Hi Hj. assert (Li : (i < length (l_fields (h_layer h l)))%nat) by (rewrite (Forall2_length _ _ _ Fe); apply nth_error_Some; congruence).
    destruct (nth_error (l_fields (h_layer h l)) i) as [[f' t]|] eqn:Et; [|apply nth_error_None in Et; lia]. destruct (Forall2_nth _ _ _ _ _ Fe Et) as (ef' & Ei & He). destruct (Forall2_nth _ _ _ _ _ ST Et) as ([g jt'] & Ej & Hg & Ht).
    cbn [fst snd] in *. assert (ef' = ef) by congruence. subst ef'. assert (g = f /\ jt' = jt) as [-> ->] by (split; congruence). subst f'. eapply field_java; try eassumption. eapply nth_error_In. exact Et. }
  destruct (columns_java jtexts (content h l) (slot l) (el_fields el) jfs (repeat [] (length (content h l))) p2 FC) as (nodes & Hr & Ln & Hp); [| | |exact E2|exact S2|].
  - rewrite (same_types_keys _ _ ST). apply (wf_schema h (do_wf h d D)).
  - apply repeat_length.
  - intros r f Hin _. apply repeat_spec in Hin. subst r. reflexivity.
  - exists nodes. split.
    + intros rest. unfold jread_layer. rewrite <- !app_assoc. rewrite (mu_int_pack _ _ _ Hn) by (pose proof (zlen_nonneg (p1 ++ p2)); unfold int_range; lia). cbn [rbind].
      rewrite (mu_int_pack _ _ _ E1) by (rewrite Enum; unfold zlen, int_range; lia). cbn [rbind]. rewrite Enum. destruct (Z.ltb_spec (zlen (content h l)) 0); [unfold zlen in *; lia|].
      unfold zlen. rewrite Nat2Z.id. apply Hr.
    + split; [congruence|]. intros p n Hat. unfold at_pos in Hat. rewrite (iter_wf _ _ (do_wf h d D)) in Hat. apply nth_map_some in Hat.
      assert (Hrep : nth_error (repeat (@nil (pystr * jv)) (length (content h l))) p = Some []).
      { assert (Lp : (p < length (content h l))%nat) by (apply nth_error_Some; congruence). rewrite nth_error_repeat by exact Lp. reflexivity. }
      destruct (Hp p n [] Hat Hrep) as (r & Er & K1 & K2). exists r. split; [assumption|]. split; [intros f Hf; rewrite K1 by assumption; reflexivity|assumption].
Qed.
Lemma layers_java ls : forall els sch b, incl ls (d_layers d) -> Forall2 (fun kl el => encode_layer h1 offsets kl = Ok el) ls els ->
  Forall2 (fun kl kf => fst kf = fst kl /\ same_types (l_fields (h_layer h (snd kl))) (snd kf)) ls sch ->
  concatM (fun l => section (layer_objs l)) els = Ok b -> zlen b < 2147483648 ->
  exists rows, (forall rest, jread_layers jtexts sch (b ++ rest) = Ok (rows, rest)) /\
    Forall2 (fun kl kr => fst kr = fst kl /\ same_types (l_fields (h_layer h (snd kl))) (fst (snd kr)) /\ rows_read (snd kl) (fst (snd kr)) (snd (snd kr))) ls rows.
Proof.
  induction ls as [|[k l] ls IH]; intros els sch b I Fe Fs Hb Sb; inversion Fe as [|? el ? els' Hel Fe']; subst; inversion Fs as [|? [k' jfs] ? sch' [Hk ST] Fs']; subst; cbn [fst snd] in *.
  - apply Ok_inj in Hb. subst b. exists []. split; [reflexivity|constructor].
  - apply concatM_cons in Hb. destruct Hb as (b1 & b2 & E1 & E2 & ->). destruct (layer_java k l el jfs b1 (I _ (or_introl eq_refl)) Hel ST E1 (short_l _ _ Sb)) as (nodes & Hn & Rn).
    destruct (IH els' sch' b2 (fun x Hx => I x (or_intror Hx)) Fe' Fs' E2 (short_r _ _ Sb)) as (rows & Hr & Fr). exists ((k, (jfs, nodes)) :: rows). split.
    + intros rest. cbn [jread_layers]. rewrite <- app_assoc, Hn. cbn [rbind]. rewrite Hr. cbn [rbind]. subst k'. reflexivity.
    + constructor; [|assumption]. cbn [fst snd]. auto.
Qed.
Lemma resolve_java k l jfs nodes : zlen (layer_iter h l) < 2147483648 -> In (k, l) (d_layers d) -> same_types (l_fields (h_layer h l)) jfs -> rows_read l jfs nodes -> exists nodes', jresolve doc_sizes jfs nodes = Ok nodes' /\ java_layer h d l (jfs, nodes').
Proof.
  intros Sm Hl ST [Ln Hr]. assert (Keys : dkeys jfs = dkeys (l_fields (h_layer h l))) by (apply same_types_keys; assumption).
  assert (ND : NoDup (dkeys jfs)) by (rewrite Keys; apply (wf_schema h (do_wf h d D))).
  assert (Ty : forall f jt, In (f, jt) jfs -> exists t, In (f, t) (l_fields (h_layer h l)) /\ java_type t jt).
  { clear - ST. intros f jt H. induction ST as [|[g t] [g' jt'] a b [H1 H2] F IH]; [destruct H|]. cbn [fst snd] in *. destruct H as [H|H]; [injection H as <- <-; subst g'; exists t; split; [left; reflexivity|assumption]|].
    destruct (IH H) as (t' & I' & J'). exists t'. split; [right|]; assumption. }
  destruct (resolve_ok doc_sizes jfs nodes ND) as (nodes' & En & Fn).
  - intros f jt Hin Hr'. destruct (Ty f jt Hin) as (t & Ht & JT). destruct (do_types h d D k f t ltac:(exists l; auto)) as (_ & _ & [O1 _] & _). pose proof JT as [Et _].
    unfold is_ref in Hr'. rewrite Et in Hr'. destruct O1 as [x Hx]; [destruct (dt_name t); try discriminate; simpl; auto|]. exists x. exact (arg_name_ok t jt _ x JT Hx).
  - intros r f jt Hin Hf. apply In_nth_error in Hin. destruct Hin as [p Hp]. assert (Lp : (p < length (layer_iter h l))%nat) by (rewrite <- Ln; apply nth_error_Some; congruence).
    destruct (iter_nth h d D l p Lp) as [n Hat]. destruct (Hr p n Hat) as (r' & Er & _ & K). assert (r' = r) by congruence. subst r'. destruct (K f jt Hf) as (o & Ho & _). eauto.
  - exists nodes'. split; [assumption|]. split; [exact ST|]. cbn [fst snd]. split; [rewrite <- (Forall2_length _ _ _ Fn); assumption|]. split; [unfold zlen in *; rewrite <- (Forall2_length _ _ _ Fn), Ln; exact Sm|]. intros p n row Hat Hrow.
    destruct (Hr p n Hat) as (r & Er & K1 & K2). destruct (Forall2_nth _ _ _ _ _ Fn Er) as (r' & Er' & M1 & M2). assert (r' = row) by congruence. subst r'. split.
    + intros f t Ht. assert (Hd : exists jt, In (f, jt) jfs).
      { apply dget_In in Ht. apply (in_map fst) in Ht. change (In f (dkeys (l_fields (h_layer h l)))) in Ht. rewrite <- Keys in Ht. apply in_map_iff in Ht. destruct Ht as ([f' jt] & <- & Hin). exists jt. exact Hin. }
      destruct Hd as [jt Hin]. destruct (K2 f jt Hin) as (o & Ho & Hj). rewrite (M1 f jt Hin) in Ho. apply Ok_inj in Ho. subst o. apply Hj. assumption.
    + intros f Hf. rewrite <- Keys. destruct (in_dec (list_eq_dec N.eq_dec) f (dkeys jfs)) as [I|I]; [assumption|]. exfalso. specialize (M2 f I). rewrite (K1 f I) in M2.
      apply dmem_In in Hf. unfold dmem in Hf. rewrite M2 in Hf. discriminate.
Qed.
End JDoc.
Lemma schema_java h d ex tv h1 ed : doc_ok h d -> codec_encode h d ex tv = (h1, Ok ed) -> java_readable h d -> exists sch,
  Forall2 jlayer_reads (ed_layers ed) sch /\ Forall2 (fun kl kf => fst kf = fst kl /\ same_types (l_fields (h_layer h (snd kl))) (snd kf)) (d_layers d) sch.
Proof.
  intros D E RD. destruct (codec_encode_inv _ _ _ _ _ _ E) as (offsets & Ec & Ft & Fl & _). pose proof (fields_encoded h d ex tv h1 ed D offsets Ec Fl) as Ff.
  assert (I : incl (d_layers d) (d_layers d)) by (intros x Hx; exact Hx). revert I Ff. generalize (ed_layers ed). intros els. generalize (d_layers d) at 1 3 4.
  intros ls I Ff. revert els I Ff. induction ls as [|[k l] ls IH]; intros els I Ff; inversion Ff as [|? el ? els' (Hn & _ & Fe) Ff']; subst; cbn [fst snd] in *; [exists []; split; constructor|].
  destruct (IH els' (fun x Hx => I x (or_intror Hx)) Ff') as (sch & F1 & F2).
  assert (X : exists jfs, Forall2 jfield_reads (el_fields el) jfs /\ same_types (l_fields (h_layer h l)) jfs).
  { assert (I' : incl (l_fields (h_layer h l)) (l_fields (h_layer h l))) by (intros x Hx; exact Hx). revert I' Fe. generalize (el_fields el). intros efs. generalize (l_fields (h_layer h l)) at 1 3 4.
    intros fs I' Fe. clear - D RD I I' Fe. unfold same_types. revert efs I' Fe. induction fs as [|[f t] fs IH]; intros efs I' Fe; inversion Fe as [|? ef ? efs' He Fe']; subst; cbn [fst snd] in *; [exists []; split; constructor|].
    destruct (IH efs' (fun x Hx => I' x (or_intror Hx)) Fe') as (jfs & F1 & F2).
    assert (Dcl : declared h d k f t) by (exists l; split; [apply I; left; reflexivity|apply I'; left; reflexivity]).
    destruct (encode_field_inv _ _ _ _ _ _ He) as (A1 & A2 & A3 & _). destruct (do_types h d D k f t Dcl) as (T1 & T2 & [O1 O2] & ND & Ho).
    assert (Y : exists jt, jfield_reads ef (f, jt) /\ java_type t jt).
    { unfold jfield_reads, java_type. cbn [fst snd]. destruct (ef_args ef) as [a|].
      - assert (Hargs : exists args, Forall2 (fun ko kj => fst kj = fst ko /\ jarg (snd ko) = Ok (snd kj)) a args /\ Forall2 (fun ov oj => fst oj = fst ov /\ java_option (snd ov) (snd oj)) (dt_opts t) args).
        { unfold dict_objs in A3. apply mapM_Forall2 in A3. pose proof (fun o v => jr_options h d RD k f t o v Dcl) as Hj. revert A3 Hj. clear. intros A3 Hj.
          induction A3 as [|[o v] [o' x] opts a H F IH]; [exists []; split; constructor|]. cbn [fst snd] in *. destruct (value_obj v) as [x'|] eqn:Ev; [|discriminate]. cbn [rbind] in H. apply Ok_inj in H. injection H as <- <-.
          destruct (Hj o v (or_introl eq_refl)) as [j Hjv]. destruct (IH (fun o v I => Hj o v (or_intror I))) as (args & G1 & G2). exists ((o, j) :: args). split; constructor; try assumption; cbn [fst snd].
          - split; [reflexivity|]. eapply jarg_ok; eassumption.
          - auto. }
        destruct Hargs as (args & G1 & G2). exists (mkJT (JT (dt_name t)) args). cbn [ty_name ty_args]. split; [|auto]. split; [auto|]. rewrite (jname_type _ _ A2). split; [reflexivity|]. split; [assumption|].
        destruct (dict_objs_spec _ _ A3) as (K1 & K2 & K3). constructor; [fold (dkeys a); rewrite K1; assumption|apply K3; assumption].
      - exists (mkJT (JT (dt_name t)) []). rewrite A3 in *. cbn [ty_name ty_args]. split; [|split; [reflexivity|constructor]]. split; [auto|]. unfold jplain. rewrite (jname_type _ _ A2).
        destruct (dt_name t); try reflexivity; try contradiction; exfalso; [destruct O1 as [x Hx]|destruct O1 as [x Hx]|destruct O2 as [x Hx]|destruct O1 as [x Hx]]; simpl in *; try discriminate; auto. }
    destruct Y as (jt & Y1 & Y2). exists ((f, jt) :: jfs). split; constructor; auto. }
  destruct X as (jfs & X1 & X2). exists ((k, jfs) :: sch). split; constructor; try assumption; cbn [fst snd]; [|auto].
  split; [auto|]. split; [assumption|]. cbn [snd]. rewrite (Forall2_dkeys _ _ _ X2). apply (wf_schema h (do_wf h d D)).
Qed.
Lemma parts_short ts b : pack (texts_obj ts) = Ok b -> zlen b < 2147483648 -> forall k parts, In (k, parts) ts -> zlen parts < 2147483648.
Proof.
  intros H S. unfold texts_obj in H. destruct (map_inv' _ _ H) as (hd & b' & _ & E & ->). apply short_r in S. clear H. revert b' S E. induction ts as [|[k0 p0] ts IH]; intros b' S E k parts Hin; [destruct Hin|].
  cbn [map] in E. apply concatM_cons in E. destruct E as (q1 & q2 & E1 & E2 & ->). destruct Hin as [Hin|Hin]; [|eapply IH; [exact (short_r _ _ S)|exact E2|exact Hin]]. injection Hin as -> ->.
  apply entry_inv in E1. destruct E1 as (p1 & p2 & _ & E1 & ->). cbn [fst snd] in E1. pose proof (arr_short _ _ E1 (short_r _ _ (short_l _ _ S))) as R. unfold zlen in *. rewrite map_length in R. lia.
Qed.
Theorem java_reads h d ex tv h1 bytes rest : doc_ok h d -> msgpack_encode h d ex tv = (h1, Ok bytes) -> java_readable h d -> zlen bytes < 2147483648 ->
  exists j, java_decode (bytes ++ rest) = Ok j /\ java_doc h d j.
Proof.
  intros D H RD Sb. destruct (msgpack_encode_inv _ _ _ _ _ _ H) as (ed & E & L). destruct (codec_encode_inv _ _ _ _ _ _ E) as (offsets & Ec & Ft & Fl & Ep).
  destruct (layout_inv _ _ L) as (n1 & k1 & b1 & sc & n2 & k2 & b2 & bl & H1 & -> & H2 & H3 & H4 & -> & H5 & H6 & ->). clear L H.
  pose proof (short_r _ _ Sb) as S0. pose proof (short_r _ _ S0) as S1. pose proof (short_l _ _ S1) as Sb1. pose proof (short_r _ _ S1) as S2. pose proof (short_l _ _ S2) as Ssc. pose proof (short_r _ _ S2) as S3.
  pose proof (short_r _ _ S3) as S4. pose proof (short_l _ _ S4) as Sb2. pose proof (short_r _ _ S4) as Sbl.
  destruct (schema_java h d ex tv h1 ed D E RD) as (sch & Fs1 & Fs2). pose proof (parts_short _ _ H5 Sb2) as Hparts.
  destruct (layers_java h d ex tv h1 ed offsets D E RD Ec Ft Hparts (d_layers d) (ed_layers ed) sch bl (fun x Hx => Hx) Fl Fs2 H6 Sbl) as (rows & Hrows & Frows).
  destruct (jr_props h d RD) as (ps & Eps & Hps). assert (Hj : exists js, Forall2 (fun ko kj => fst kj = fst ko /\ java_prop (snd ko) (snd kj)) ps js).
  { clear - Hps. induction ps as [|[k o] ps IH]; [exists []; constructor|]. destruct IH as [js F]; [intros k' o' I; apply (Hps k' o'); right; exact I|]. destruct (Hps k o (or_introl eq_refl)) as [v Hv]. exists ((k, v) :: js). constructor; auto. }
  destruct Hj as [js Fjs]. pose proof (do_props h d D) as Pp. rewrite Ep, Eps in H2. rewrite Eps in Pp.
  destruct (names_back h d ex tv h1 ed D E) as [Nl Nt].
  assert (Sz : map (fun kl : pystr * (dict jdtype * list (dict jv)) => (fst kl, length (snd (snd kl)))) rows = doc_sizes h d).
  { unfold doc_sizes. clear - Frows. induction Frows as [|[k l] [k' [jfs ns]] a b (A1 & _ & [A2 _]) F IH]; [reflexivity|]. cbn [map fst snd] in *. rewrite IH, A1, A2. reflexivity. }
  assert (Rs : exists ls, mapM (fun kl : pystr * (dict jdtype * list (dict jv)) => let* ns := jresolve (doc_sizes h d) (fst (snd kl)) (snd (snd kl)) in Ok (fst kl, (fst (snd kl), ns))) rows = Ok ls /\
    Forall2 (fun kl kj => fst kj = fst kl /\ java_layer h d (snd kl) (snd kj)) (d_layers d) ls).
  { assert (I : incl (d_layers d) (d_layers d)) by (intros x Hx; exact Hx). revert I. clear - Frows D RD. revert rows Frows. generalize (d_layers d) at 1 2 4. intros ls0. induction ls0 as [|[k l] ls0 IH]; intros rows Fr I;
      inversion Fr as [|? [k' [jfs ns]] ? rows' (A1 & A2 & A3) Fr']; subst; cbn [fst snd] in *; [exists []; split; [reflexivity|constructor]|].
    destruct (resolve_java h d D k l jfs ns (jr_nodes h d RD k l (I _ (or_introl eq_refl))) (I _ (or_introl eq_refl)) A2 A3) as (ns' & En & J). destruct (IH rows' Fr' (fun x Hx => I x (or_intror Hx))) as (ls & El & Fl). exists ((k, (jfs, ns')) :: ls). split.
    - cbn [mapM fst snd]. rewrite En. cbn [rbind]. rewrite El. cbn [rbind]. subst k'. reflexivity.
    - constructor; [|assumption]. auto. }
  destruct Rs as (ls & El & Fls). exists (mkJDoc js (map (fun kt => (fst kt, fst (snd kt))) (map jentry (ed_texts ed))) ls). split.
  - unfold java_decode. rewrite <- !app_assoc. unfold mu_payload. rewrite (take_app 4 magic) by reflexivity.
    cbn [rbind]. change (negb (list_eqb N.eqb magic magic)) with false. cbv iota.
    rewrite (jread_props_pack ps js n1 b1 _ Fjs Pp H1 H2 Sb1). cbn [rbind]. rewrite (jread_schema_pack _ sch sc _ H3 Ssc Fs1) by (rewrite Nl; apply (do_layers h d D)). cbn [rbind].
    rewrite (jread_texts_pack (ed_texts ed) n2 b2 _ ltac:(rewrite Nt; apply (do_texts h d D)) H4 H5 Sb2). cbn [rbind]. rewrite Hrows. cbn [rbind]. cbv zeta. rewrite Sz, El. reflexivity.
  - split; cbn [jd_props jd_texts jd_layers].
    + exists ps. auto.
    + rewrite map_map. cbn [jentry fst snd]. clear - Ft D Ec E.
      assert (G : Forall2 (fun kt ke => fst ke = fst kt /\ List.concat (snd ke) = snd kt) (d_texts d) (ed_texts ed)).
      { eapply Forall2_impl'; [exact (Ft)|]. intros [k x] [k' y] Hin (E1 & o & E2 & E3). cbn [fst snd] in *. subst k'. split; [reflexivity|].
        destruct (compile_offsets h d ex tv h1 offsets (do_wf h d D) (do_known h d D) Ec) as [_ Ho].
        pose proof (dget_nodup (d_texts d) k x (do_texts h d D) Hin) as Ek. destruct (Ho k x Ek) as (q & Eq & Hq). assert (o = sorted_offsets x q) by congruence. subst o y.
        destruct (segmentation x q) as [S1 _]; [|exact S1]. apply Forall_forall. intros z Hz. apply Hq in Hz. eapply span_bounds; eassumption. }
      clear Ft. induction G as [|[k x] [k' y] a b (E1 & E2) F IH]; [reflexivity|]. cbn [map fst snd] in *. rewrite E1, E2, IH. reflexivity.
    + exact Fls.
Qed.
(** ... and no other document is read *)
Theorem java_doc_readable h d j : doc_ok h d -> java_doc h d j -> java_readable h d.
Proof.
  intros D [Jp _ Jl].
  assert (At : forall k l, In (k, l) (d_layers d) -> exists jl, java_layer h d l jl).
  { intros k l Hin. apply In_nth_error in Hin. destruct Hin as [i Hi]. destruct (Forall2_nth _ _ _ _ _ Jl Hi) as (kj & _ & _ & J). eauto. }
  assert (Val : forall k l n f t, doc_node h d k l n -> dget (l_fields (h_layer h l)) f = Some t -> exists o, java_value h d t (dget (n_fieldsof h n) f) o).
  { intros k l n f t [Hl Hn] Ht. destruct (At k l Hl) as (jl & _ & Ln & _ & Hj). apply In_nth_error in Hn. destruct Hn as [p Hp].
    assert (Lp : (p < length (snd jl))%nat) by (rewrite Ln; apply nth_error_Some; congruence). destruct (nth_error (snd jl) p) as [row|] eqn:Er; [|apply nth_error_None in Er; lia].
    destruct (Hj p n row Hp Er) as [V _]. eauto. }
  split.
  - destruct Jp as (ps & Ep & F). exists ps. split; [assumption|]. intros k o Hin. apply In_nth_error in Hin. destruct Hin as [i Hi]. destruct (Forall2_nth _ _ _ _ _ F Hi) as (kj & _ & _ & J). eauto.
  - intros k f t o v (l & Hl & Hf) Hov. destruct (At k l Hl) as (jl & Fj & _). apply In_nth_error in Hf. destruct Hf as [i Hi]. destruct (Forall2_nth _ _ _ _ _ Fj Hi) as (fj & _ & _ & _ & Fo).
    apply In_nth_error in Hov. destruct Hov as [i' Hi']. destruct (Forall2_nth _ _ _ _ _ Fo Hi') as (oj & _ & _ & J). eauto.
  - intros k l Hl. destruct (At k l Hl) as (jl & _ & Ln & Sm & _). unfold zlen in *. rewrite <- Ln. exact Sm.
  - intros k l n f t i Hn Ht Et Hv. destruct (Val k l n f t Hn Ht) as [o V]. rewrite Hv in V. inversion V; subst; solve [assumption|congruence].
  - intros k l n f t i Hn Ht Et Hv. destruct (Val k l n f t Hn Ht) as [o V]. rewrite Hv in V. inversion V; subst; solve [assumption|congruence].
  - intros k l n f t x Hn Ht Et Hv. destruct (Val k l n f t Hn Ht) as [o V]. rewrite Hv in V. inversion V.
Qed.
Theorem java_reads_exactly h d ex tv h1 bytes rest : doc_ok h d -> msgpack_encode h d ex tv = (h1, Ok bytes) -> zlen bytes < 2147483648 ->
  (java_readable h d <-> exists j, java_decode (bytes ++ rest) = Ok j /\ java_doc h d j).
Proof. intros D H S. split; [intros R; eapply java_reads; eassumption|]. intros (j & _ & J). eapply java_doc_readable; eassumption. Qed.
