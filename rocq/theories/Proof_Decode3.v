(** Documents built from any parsed data, second part. *)
From Verif Require Import PyBase PyBaseFacts Model_Text Model_Heap Model_Layer Model_Types Model_Msgpack Model_Document Model_Codec
  Spec_Layer Spec_Types Spec_Msgpack Spec_Document Spec_Codec Spec_Decode Proof_Layer4 Proof_Document Proof_Msgpack Proof_Layout Proof_Codec Proof_Codec2 Proof_Codec5 Proof_Xml
  Proof_Decode Proof_Decode2.
Local Open Scope Z_scope.

Lemma joined_text (ts : dict (list pystr)) c segs : dget ts c = Some segs -> dget (map (fun kt => (fst kt, fst (snd kt))) (map text_entry ts)) c = Some (join_segs segs).
Proof.
  induction ts as [|[k v] ts IH]; intros H; [discriminate|]. cbn [map text_entry fst snd dget] in *. destruct (str_eqb c k); [congruence|apply IH; assumption].
Qed.
Section Built.
Variables (h : heap) (p : pdoc) (h2 : heap) (d : doc).
Hypothesis P : parsed p.
Hypothesis B : build h p = (h2, Ok d).
Let texts := map text_entry (pd_texts p).
Let bs := layer_bases (h_nnext h) (pd_schema p) (map fst (pd_layers p)).
Let L : length (pd_layers p) = length (pd_schema p) := parsed_length p P.
Lemma built_cell f t q col : has_cell p f t q col -> exists o, decode_cell texts bs t col q = Ok o.
Proof.
  intros (k & n & (i & fs & cols & j & A1 & A2 & A3 & A4) & Hq). destruct (build_inv _ _ _ _ B) as (nodes & E & _).
  destruct (build_index _ _ _ _ (h_nnext h) _ _ E L) as (_ & I2 & _). destruct (I2 i k fs A1) as (nc & ns & f0 & C1 & C2 & C3 & _).
  assert (nc = (n, cols)) by congruence. subst nc. destruct (decode_nodes_nth _ _ _ _ _ _ C3) as [Ln Hn]. cbn [fst snd] in *.
  destruct (nth_error ns q) as [x|] eqn:Ex; [|apply nth_error_None in Ex; lia]. destruct (Hn q x Ex) as (row & Er & _). eapply row_cells; eassumption.
Qed.
Lemma built_check k f t n col : has_column p k f t n col -> check_field bs (f, t) = Ok tt.
Proof.
  intros (i & fs & cols & j & A1 & A2 & A3 & A4). pose proof (build_checked _ _ _ _ B) as C. unfold check_fields in C. destruct (mapM _ _) as [us|] eqn:E; [|discriminate].
  destruct (mapM_each _ _ _ E (f, t)) as ([] & Y); [|exact Y]. apply in_flat_map. exists (k, fs). split; [eapply nth_error_In; exact A1|]. cbn [snd]. eapply nth_error_In; exact A3.
Qed.
Lemma built_refs k f t n col : has_column p k f t n col -> In (dt_name t) refs -> exists c b, opt_name t (s "layer") = Ok c /\ dgetE bs c = Ok b.
Proof.
  intros Hc Hr. pose proof (built_check _ _ _ _ _ Hc) as C. unfold check_field in C. cbn [snd] in C.
  assert (R : (let* c := opt_name t (s "layer") in let* _ := dgetE bs c in Ok tt) = Ok tt).
  { destruct (dt_name t); try (exfalso; cbn in Hr; intuition discriminate); exact C. }
  destruct (opt_name t (s "layer")) as [c|]; [|discriminate]. cbn [rbind] in R. destruct (dgetE bs c) as [b|] eqn:Eb; [|discriminate]. exists c, b. split; [reflexivity|exact Eb].
Qed.
Lemma built_context k f t n col : has_column p k f t n col -> dt_name t = TSpan -> exists c, opt_name t (s "context") = Ok c.
Proof.
  intros Hc Hr. pose proof (built_check _ _ _ _ _ Hc) as C. unfold check_field in C. cbn [snd] in C. rewrite Hr in C. destruct (opt_name t (s "context")); [eauto|discriminate].
Qed.
(** the target layer of a cell *)
Lemma cell_target f t q col x m : has_cell p f t q col -> targets_layer t x -> has_nodes p x m -> exists b, opt_name t (s "layer") = Ok x /\ dgetE bs x = Ok b /\ m = Z.of_nat (snd b).
Proof.
  intros (k & n & Hc & _) [T1 T2] Hm. destruct (built_refs _ _ _ _ _ Hc T1) as (c & b & Eo & Eb). exists b. pose proof Eo as Eo'. apply opt_name_ok in Eo'. unfold pystr in *.
  assert (c = x) by congruence. subst c. split; [assumption|]. split; [assumption|]. eapply nodes_unique; [exact P|exact Hm|]. eapply base_ok. exact Eb.
Qed.
Lemma no_fault e : fault p e -> False.
Proof.
  intros F. destruct F as [k f t n col H Et Eo|k f t n col H Er Eo|k f t n col H Et Eo|k f t n col x H T Hn|f t q col x m i H Et T Hm En Ho|f t q col x m l i H Et T Hm En Hi Ho
    |f t q col x m i n r H Et T Hm En Ho|f t q col l H Et En Hl|f t q col o H Et En Ho|f t q col x m i n r a b H Et T Hm En Ha Hb Hab
    |f t q col c segs i o o' H T Es E1 E2 Ho Hi|f t q col c segs i j a b H T Es E1 E2 Ha Hb Hab].
  - destruct (built_context _ _ _ _ _ H Et) as (c & E). apply opt_name_ok in E. unfold pystr in *. congruence.
  - destruct (built_refs _ _ _ _ _ H Er) as (c & b & E & _). apply opt_name_ok in E. unfold pystr in *. congruence.
  - pose proof (built_check _ _ _ _ _ H) as C. unfold check_field in C. cbn [snd] in C. rewrite Et in C. unfold dgetE in C. rewrite Eo in C. discriminate.
  - destruct T as [T1 T2]. destruct (built_refs _ _ _ _ _ H T1) as (c & b & E & Eb). apply opt_name_ok in E. assert (c = x) by (unfold pystr in *; congruence). subst c.
    apply Hn. rewrite <- (bases_dkeys p (h_nnext h) P). apply dmem_In. unfold dmem. unfold dgetE in Eb. fold bs. destruct (dget bs x); [reflexivity|discriminate].
  - destruct (cell_target _ _ _ _ _ _ H T Hm) as (b & Eo & Eb & ->). destruct (built_cell _ _ _ _ H) as (o & E). unfold decode_cell in E. rewrite Et, Eo in E. cbn [rbind] in E. rewrite Eb in E.
    cbn [rbind] in E. rewrite En in E. unfold target in E. cbn [as_num rbind] in E. apply py_index_out in Ho; [|lia]. rewrite Ho in E. discriminate.
  - destruct (cell_target _ _ _ _ _ _ H T Hm) as (b & Eo & Eb & ->). destruct (built_cell _ _ _ _ H) as (o & E). unfold decode_cell in E. rewrite Et, Eo in E. cbn [rbind] in E. rewrite Eb in E.
    cbn [rbind] in E. rewrite En in E. destruct (mapM (target b) l) as [ks|] eqn:Em; [|discriminate]. destruct (mapM_each _ _ _ Em _ Hi) as (k & Ek).
    unfold target in Ek. cbn [as_num rbind] in Ek. apply py_index_out in Ho; [|lia]. rewrite Ho in Ek. discriminate.
  - destruct (cell_target _ _ _ _ _ _ H T Hm) as (b & Eo & Eb & ->). destruct (built_cell _ _ _ _ H) as (o & E). unfold decode_cell in E. rewrite Et, Eo in E. cbn [rbind] in E. rewrite Eb in E.
    cbn [rbind] in E. rewrite En in E. unfold target in E. cbn [as_num rbind] in E. destruct Ho as [Ho|Ho]; apply py_index_out in Ho; try lia; rewrite Ho in E.
    + discriminate.
    + destruct (py_index _ i); discriminate.
  - pose proof H as (k & n & Hc & _). destruct (built_refs _ _ _ _ _ Hc) as (c & b & Eo & Eb); [rewrite Et; cbn; tauto|]. destruct (built_cell _ _ _ _ H) as (o & E).
    unfold decode_cell in E. rewrite Et, Eo in E. cbn [rbind] in E. rewrite Eb in E. cbn [rbind] in E. rewrite En in E. destruct l as [|? [|? ?]]; [discriminate..|cbn in Hl; lia].
  - pose proof H as (k & n & Hc & _). destruct (built_refs _ _ _ _ _ Hc) as (c & b & Eo & Eb); [cbn in Et |- *; tauto|]. destruct (built_cell _ _ _ _ H) as (o1 & E).
    unfold decode_cell in E. rewrite Eo in E. cbn [rbind] in E. rewrite Eb in E. cbn [rbind] in E. rewrite En in E.
    destruct Et as [Et|[Et|[]]]; rewrite <- Et in E; destruct Ho as [(z & ->)|[(z & ->)|(z & ->)]]; discriminate.
  - destruct (cell_target _ _ _ _ _ _ H T Hm) as (bb & Eo & Eb & ->). destruct (built_cell _ _ _ _ H) as (o & E). unfold decode_cell in E. rewrite Et, Eo in E. cbn [rbind] in E. rewrite Eb in E.
    cbn [rbind] in E. rewrite En in E. cbn [as_num rbind] in E. destruct (target bb (MInt i)) as [k1|] eqn:K1; [|discriminate]. cbn [rbind] in E.
    destruct (target bb (MInt (i + n))) as [k2|] eqn:K2; [|discriminate]. cbn [rbind] in E. apply target_int in K1, K2.
    pose proof (indexes_unique _ _ _ _ K1 Ha). pose proof (indexes_unique _ _ _ _ K2 Hb). destruct (Nat.leb_spec k1 k2); [lia|discriminate].
  - destruct T as [T1 T2]. pose proof H as (k & n & Hc & _). destruct (built_context _ _ _ _ _ Hc T1) as (c' & Eo). pose proof Eo as Eo'. apply opt_name_ok in Eo'.
    assert (c' = c) by (unfold pystr in *; congruence). subst c'. destruct (built_cell _ _ _ _ H) as (r & E). unfold decode_cell in E. rewrite T1, Eo in E. cbn [rbind] in E.
    unfold texts in E. rewrite dget_text_entry, Es, E1, E2 in E.
    destruct Ho as [->|[Ho ->]].
    + destruct (offset_at_int segs i) as [[Ex _]|(x & _ & Hx & _)]; [rewrite Ex in E; discriminate|contradiction].
    + assert (E3 : (let* x := offset_at (seg_offsets 0 segs) o in let* y := offset_at (seg_offsets 0 segs) (MInt i) in
                  if x <=? y then Ok (Some (VSpan c (join_segs segs) x y)) else Err AssertionError) = Ok r) by (destruct o; [congruence|exact E..]).
      destruct (offset_at (seg_offsets 0 segs) o) as [x|]; [|discriminate]. cbn [rbind] in E3. destruct (offset_at_int segs i) as [[Ex _]|(y & _ & Hx & _)]; [rewrite Ex in E3; discriminate|contradiction].
  - destruct T as [T1 T2]. pose proof H as (k & n & Hc & _). destruct (built_context _ _ _ _ _ Hc T1) as (c' & Eo). pose proof Eo as Eo'. apply opt_name_ok in Eo'.
    assert (c' = c) by (unfold pystr in *; congruence). subst c'. destruct (built_cell _ _ _ _ H) as (r & E). unfold decode_cell in E. rewrite T1, Eo in E. cbn [rbind] in E.
    unfold texts in E. rewrite dget_text_entry, Es, E1, E2 in E.
    destruct (offset_at_int segs i) as [[Ex Hx]|(x & Ex & Hx)]; [destruct Ha; contradiction|]. rewrite Ex in E. cbn [rbind] in E.
    destruct (offset_at_int segs j) as [[Ey Hy]|(y & Ey & Hy)]; [destruct Hb; contradiction|]. rewrite Ey in E. cbn [rbind] in E.
    pose proof (offset_unique _ _ _ _ Ha Hx). pose proof (offset_unique _ _ _ _ Hb Hy). destruct (Z.leb_spec x y); [lia|discriminate].
Qed.

Hypothesis W : wf h.
Let K : forall k fs, In (k, fs) (pd_schema p) -> NoDup (dkeys fs) := fun k fs H => proj1 (pa_fields p P k fs H).
Lemma names_layers : dkeys (d_layers d) = map fst (pd_schema p).
Proof.
  destruct (build_inv _ _ _ _ B) as (nodes & _ & _ & ->). cbn [d_layers]. unfold dkeys. rewrite <- (map_length fst (pd_schema p)). apply map_fst_combine.
Qed.
Lemma layer_at k l : In (k, l) (d_layers d) -> exists i fs, nth_error (pd_schema p) i = Some (k, fs) /\ l = (h_lnext h + i)%nat.
Proof.
  intros H. apply In_nth_error in H. destruct H as (i & H). pose proof names_layers as E. apply (f_equal (fun x => nth_error x i)) in E. unfold dkeys in E. rewrite !nth_error_map, H in E.
  destruct (nth_error (pd_schema p) i) as [[k' fs]|] eqn:Es; [|discriminate]. cbn in E. assert (k = k') by congruence. subst k'. exists i, fs. split; [assumption|].
  destruct (built_layer h p h2 d B L i k fs Es) as (nc & f0 & _ & _ & _ & _ & E' & _). rewrite H in E'. congruence.
Qed.
Lemma nodup_layers : NoDup (dkeys (d_layers d)).
Proof. rewrite names_layers. exact (pa_names p P). Qed.
(** the node that a base and a position lead to *)
Lemma base_node x b q : dgetE bs x = Ok b -> (q < snd b)%nat -> exists l, dget (d_layers d) x = Some l /\ at_pos h2 l q (node_at b q).
Proof.
  intros E Hq. unfold dgetE in E. destruct (dget bs x) as [b'|] eqn:E'; [|discriminate]. assert (b' = b) by congruence. subst b'. clear E. apply dget_nth in E'. destruct E' as (i & E).
  pose proof E as E'. apply bases_nth in E'. destruct E' as (fs & n & A1 & A2 & A3). destruct (built_layer h p h2 d B L i x fs A1) as (nc & f0 & B1 & _ & B2 & _ & B4 & _).
  unfold bs in E. exists (h_lnext h + i)%nat. split; [apply (nth_dget _ i); [exact nodup_layers|assumption]|].
  apply (built_at_pos h p h2 d W B L K i x fs nc f0 A1 B1 B2). assert (b = (f0, Z.to_nat (fst nc))) by congruence. subst b. split; [assumption|reflexivity].
Qed.
Lemma target_ok b o k : target b o = Ok k -> (k < snd b)%nat.
Proof.
  unfold target. intros H. destruct o; cbn [as_num rbind] in H; try discriminate. destruct (py_index (Z.of_nat (snd b)) i) as [k'|] eqn:E; [|discriminate]. assert (k' = k) by congruence. subst k'.
  apply py_index_at in E; [|lia]. destruct E. lia.
Qed.
Lemma base_own x b q : dgetE bs x = Ok b -> (q < snd b)%nat -> own_node h2 d x (node_at b q).
Proof. intros E Hq. destruct (base_node x b q E Hq) as (l & A). exists l, q. exact A. Qed.
Lemma dget_doc_text c segs : dget (pd_texts p) c = Some segs -> dget (d_texts d) c = Some (join_segs segs).
Proof.
  destruct (build_inv _ _ _ _ B) as (nodes & _ & _ & ->). cbn [d_texts]. apply joined_text.
Qed.
Lemma offset_range segs i x : offset_of segs i x -> 0 <= x <= zlen (join_segs segs).
Proof.
  intros [_ ->]. unfold join_segs. rewrite <- (firstn_skipn (Z.to_nat i) segs) at 3. rewrite concat_app. unfold zlen. rewrite app_length. lia.
Qed.
Lemma cell_loaded f t q col v : has_cell p f t q col -> type_read t -> Forall python_value col -> decode_cell texts bs t col q = Ok (Some v) -> loaded h2 d t v.
Proof.
  intros H T Pc E. assert (Plain : In (dt_name t) plain -> match nth_error col q with None | Some MNil => Ok None | Some o => let* v := obj_value o in Ok (Some v) end = Ok (Some v) -> loaded h2 d t v).
  { intros Ht E'. destruct (nth_error col q) as [o|] eqn:En; [|discriminate]. apply nth_error_In in En. rewrite Forall_forall in Pc. apply Pc in En.
    destruct o; try discriminate; cbn [obj_value rbind] in E'; (match type of E' with Ok (Some ?w) = _ => assert (v = w) by congruence; subst v end); apply ld_plain; try assumption; try discriminate;
      inversion En; constructor; assumption. }
  assert (Ref : In (dt_name t) refs -> exists c b, opt_name t (s "layer") = Ok c /\ dgetE bs c = Ok b /\ targets_layer t c).
  { intros Ht. destruct H as (k & n & Hc & _). destruct (built_refs _ _ _ _ _ Hc Ht) as (c & b & Eo & Eb). exists c, b. split; [assumption|]. split; [assumption|]. apply target_name; assumption. }
  unfold decode_cell in E. destruct (dt_name t) eqn:Et; try discriminate; try (apply Plain; [cbn; tauto|exact E]).
  - destruct Ref as (c & b & Eo & Eb & Tl); [cbn; tauto|]. rewrite Eo in E. cbn [rbind] in E. rewrite Eb in E. cbn [rbind] in E. destruct (nth_error col q) as [o|]; [|discriminate].
    assert (X : exists k, target b o = Ok k /\ v = VNode (node_at b k)).
    { destruct o; try discriminate; destruct (target b _) as [k|]; try discriminate; cbn [rbind] in E; exists k; split; try reflexivity; congruence. }
    destruct X as (k & Ek & ->). eapply ld_node; [assumption|exact Tl|]. apply base_own; [assumption|]. eapply target_ok. exact Ek.
  - destruct Ref as (c & b & Eo & Eb & Tl); [cbn; tauto|]. rewrite Eo in E. cbn [rbind] in E. rewrite Eb in E. cbn [rbind] in E. destruct (nth_error col q) as [o|]; [|discriminate].
    destruct o; try discriminate. destruct (mapM (target b) _) as [ks|] eqn:Em; [|discriminate]. cbn [rbind] in E.
    assert (v = VNodeList (map Some (map (node_at b) ks))) by (rewrite map_map; congruence). subst v. eapply ld_many; [assumption|exact Tl|].
    apply mapM_Forall2 in Em. clear E Plain. induction Em as [|o k l ks Hok Em IH]; [constructor|]. constructor; [|exact IH]. apply base_own; [assumption|]. eapply target_ok. exact Hok.
  - destruct (opt_name t (s "context")) as [c|] eqn:Eo; [|discriminate]. cbn [rbind] in E. unfold texts in E. rewrite dget_text_entry in E. destruct (dget (pd_texts p) c) as [segs|] eqn:Es; [|discriminate].
    destruct (nth_error col (2 * q)) as [o|]; [|discriminate]. destruct (nth_error col (2 * q + 1)) as [o'|]; [|destruct o; discriminate].
    assert (E3 : (let* x := offset_at (seg_offsets 0 segs) o in let* y := offset_at (seg_offsets 0 segs) o' in
                  if x <=? y then Ok (Some (VSpan c (join_segs segs) x y)) else Err AssertionError) = Ok (Some v)) by (destruct o; [discriminate|exact E..]).
    clear E. destruct (is_int o) as [[i ->]|Hn]; [|rewrite offset_at_other in E3 by assumption; discriminate].
    destruct (offset_at_int segs i) as [[Ex Hx]|(x & Ex & Hx)]; rewrite Ex in E3; [discriminate|]. cbn [rbind] in E3.
    destruct (is_int o') as [[j ->]|Hn]; [|rewrite offset_at_other in E3 by assumption; discriminate].
    destruct (offset_at_int segs j) as [[Ey Hy]|(y & Ey & Hy)]; rewrite Ey in E3; [discriminate|]. cbn [rbind] in E3.
    destruct (Z.leb_spec x y); [|discriminate]. assert (v = VSpan c (join_segs segs) x y) by congruence. subst v. apply offset_range in Hx, Hy.
    apply ld_span; [split; [assumption|apply opt_name_ok; assumption]|apply dget_doc_text; assumption|lia|lia].
  - destruct Ref as (c & b & Eo & Eb & Tl); [cbn; tauto|]. rewrite Eo in E. cbn [rbind] in E. rewrite Eb in E. cbn [rbind] in E. destruct (nth_error col q) as [o|]; [|discriminate].
    destruct o as [|x|x|x|x|x|l|x]; try discriminate. destruct l as [|o1 [|o2 l]]; try discriminate.
    destruct o1 as [| |i| | | | |]; cbn [as_num rbind] in E; try discriminate. destruct o2 as [| |z| | | | |]; cbn [as_num rbind] in E; try discriminate.
    destruct (target b (MInt i)) as [k1|] eqn:E1; [|discriminate]. cbn [rbind] in E. destruct (target b (MInt (i + z))) as [k2|] eqn:E2; [|discriminate]. cbn [rbind] in E.
    destruct (Nat.leb_spec k1 k2); [|discriminate]. assert (v = VNodeSpan (node_at b k1) (node_at b k2)) by congruence. subst v.
    apply target_ok in E1, E2. destruct (base_node c b k1 Eb E1) as (l1 & A1 & A2). destruct (base_node c b k2 Eb E2) as (l2 & A3 & A4).
    assert (l2 = l1) by congruence. subst l2. eapply ld_nodespan; [assumption|exact Tl|]. exists l1, k1, k2. auto.
Qed.
Lemma node_row k l n : doc_node h2 d k l n -> exists i fs m cols q, nth_error (pd_schema p) i = Some (k, fs) /\ nth_error (pd_layers p) i = Some (m, cols) /\ Z.of_nat q < m /\
  l_fields (h_layer h2 l) = fs /\ decode_row texts bs fs cols q = Ok (n_fieldsof h2 n).
Proof.
  intros [Hl Hn]. destruct (layer_at k l Hl) as (i & fs & Hi & ->). destruct (built_layer h p h2 d B L i k fs Hi) as (nc & f0 & B1 & _ & B2 & B3 & B4 & _ & B6).
  apply In_nth_error in Hn. destruct Hn as (q & Hn). pose proof (built_at_pos h p h2 d W B L K i k fs nc f0 Hi B1 B2 q n) as [X _]. destruct (X Hn) as [Hq ->].
  destruct (B6 q Hq) as (row & Er & En). destruct nc as [m cols]. cbn [fst snd] in *. exists i, fs, m, cols, q. split; [assumption|]. split; [assumption|]. split; [lia|].
  split; [rewrite B3; reflexivity|]. unfold n_fieldsof. rewrite En. exact Er.
Qed.
Lemma column_at i k fs j f t : nth_error (pd_schema p) i = Some (k, fs) -> nth_error fs j = Some (f, t) -> exists n col, has_column p k f t n col.
Proof.
  intros Hi Hj. destruct (parsed_nth p i k fs P Hi) as (n & cols & A1 & A2 & _). destruct (nth_error cols j) as [col|] eqn:Ecol.
  2: { apply nth_error_None in Ecol. assert (j < length fs)%nat by (apply nth_error_Some; congruence). lia. }
  exists n, col, i, fs, cols, j. auto.
Qed.
Lemma declared_at k f t : declared h2 d k f t -> exists i fs j, nth_error (pd_schema p) i = Some (k, fs) /\ nth_error fs j = Some (f, t).
Proof.
  intros (l & Hl & Hf). destruct (layer_at k l Hl) as (i & fs & Hi & ->). destruct (built_layer h p h2 d B L i k fs Hi) as (nc & f0 & _ & _ & _ & B3 & _).
  rewrite B3 in Hf. cbn [l_fields] in Hf. apply In_nth_error in Hf. destruct Hf as (j & Hj). exists i, fs, j. auto.
Qed.
Lemma built_sound : sound h2 d.
Proof.
  constructor.
  - exact (built_wf h p h2 d W B L K).
  - intros k l Hl. destruct (layer_at k l Hl) as (i & fs & Hi & ->). rewrite (built_lnext h p h2 d B L). assert (i < length (pd_schema p))%nat by (apply nth_error_Some; congruence). lia.
  - destruct (build_inv _ _ _ _ B) as (nodes & _ & _ & ->). cbn [d_texts]. pose proof (pa_texts p P) as N. unfold dkeys in *. rewrite !map_map. cbn [text_entry fst]. exact N.
  - exact nodup_layers.
  - destruct (build_inv _ _ _ _ B) as (nodes & _ & _ & ->). exact (pa_props p P).
  - intros k l Hl. destruct (layer_at k l Hl) as (i & fs & Hi & ->). destruct (built_layer h p h2 d B L i k fs Hi) as (nc & f0 & _ & _ & _ & B3 & _). unfold l_nameof. rewrite B3. reflexivity.
  - intros k l Hl. destruct (layer_at k l Hl) as (i & fs & Hi & ->). destruct (built_layer h p h2 d B L i k fs Hi) as (nc & f0 & _ & _ & _ & B3 & _). unfold no_gaps, l_nodesof. rewrite B3. cbn [l_nodes].
    intros Hin. apply in_map_iff in Hin. destruct Hin as (x & E & _). discriminate.
  - intros k f t Hd. destruct (declared_at k f t Hd) as (i & fs & j & A1 & A2). apply nth_error_In in A1, A2. exact (proj2 (pa_fields p P k fs A1) f t A2).
  - intros k f t Hd Hr. destruct (declared_at k f t Hd) as (i & fs & j & A1 & A2). destruct (column_at i k fs j f t A1 A2) as (n & col & Hc).
    destruct (built_refs _ _ _ _ _ Hc Hr) as (c & b & Eo & Eb). exists c. split; [apply target_name; assumption|]. rewrite names_layers. rewrite <- (bases_dkeys p (h_nnext h) P).
    apply dmem_In. unfold dmem. unfold dgetE in Eb. fold bs. destruct (dget bs c); [reflexivity|discriminate].
  - intros k f t Hd Hr. destruct (declared_at k f t Hd) as (i & fs & j & A1 & A2). destruct (column_at i k fs j f t A1 A2) as (n & col & Hc).
    destruct (built_context _ _ _ _ _ Hc Hr) as (c & Eo). exists c. split; [assumption|apply opt_name_ok; assumption].
  - intros k l n Hn. destruct (node_row k l n Hn) as (i & fs & m & cols & q & A1 & A2 & A3 & A4 & A5). rewrite A4. apply nth_error_In in A1.
    destruct (row_get _ _ _ _ _ _ A5 (K k fs A1)) as (R1 & R2 & _). split; assumption.
  - intros k l n f t v Hn Ht Hv. destruct (node_row k l n Hn) as (i & fs & m & cols & q & A1 & A2 & A3 & A4 & A5). rewrite A4 in Ht. pose proof A1 as A1'. apply nth_error_In in A1'.
    destruct (row_get _ _ _ _ _ _ A5 (K k fs A1')) as (_ & _ & R3). destruct (R3 f v Hv) as (j & t' & col & C1 & C2 & C3).
    assert (t' = t) by (pose proof (nth_dget _ _ _ _ (K k fs A1') C1); congruence). subst t'.
    destruct (parsed_nth p i k fs P A1) as (n' & cols' & D1 & _ & D3). assert (n' = m /\ cols' = cols) as [-> ->] by (split; congruence).
    eapply (cell_loaded f t q col); [| | |exact C3].
    + exists k, m. split; [|assumption]. exists i, fs, cols, j. auto.
    + apply nth_error_In in C1. exact (proj2 (pa_fields p P k fs A1') f t C1).
    + rewrite Forall_forall in D3. apply D3. eapply nth_error_In. exact C2.
Qed.
End Built.

Lemma fault_raises h p e : parsed p -> fault p e -> exists e', build h p = (h, Err e').
Proof.
  intros P F. destruct (build h p) as [h2 [d|e']] eqn:B.
  - exfalso. exact (no_fault h p h2 d P B e F).
  - apply build_faults in B; [|assumption]. destruct B as [-> _]. eauto.
Qed.
Lemma decode_sound h bs h2 d : bytes bs -> wf h -> msgpack_decode h bs = (h2, Ok d) -> sound h2 d /\ untouched h h2.
Proof.
  unfold msgpack_decode. intros Hb W H. destruct (parse bs) as [p|] eqn:E; [|discriminate]. apply parse_parsed in E; [|assumption]. split; [exact (built_sound h p h2 d E H W)|].
  exact (built_untouched h p h2 d H (parsed_length p E)).
Qed.
Lemma decode_err h bs h2 e : bytes bs -> msgpack_decode h bs = (h2, Err e) ->
  h2 = h /\ (parse bs = Err e \/ exists p, parse bs = Ok p /\ (e = Unmodelled \/ fault p e)).
Proof.
  unfold msgpack_decode. intros Hb H. destruct (parse bs) as [p|e'] eqn:E.
  - pose proof E as E'. apply parse_parsed in E'; [|assumption]. apply build_faults in H; [|assumption]. destruct H as [-> H]. split; [reflexivity|]. right. eauto.
  - assert (h2 = h /\ e' = e) as [-> ->] by (split; congruence). auto.
Qed.
Lemma fault_decode h bs p e : bytes bs -> parse bs = Ok p -> fault p e -> exists e', msgpack_decode h bs = (h, Err e').
Proof. intros Hb E F. unfold msgpack_decode. rewrite E. eapply fault_raises; [eapply parse_parsed; eassumption|exact F]. Qed.
Lemma sound_typed h d : sound h d -> typed h d -> doc_ok h d.
Proof.
  intros S T. constructor; [apply S..| |].
  - intros k f t Hd. destruct (so_types h d S k f t Hd) as (_ & T2 & T3 & T4). split; [exact (ty_ext h d T k f t Hd)|]. split; [assumption|]. split; [|split; assumption].
    split; intros Hr; [destruct (so_refs h d S k f t Hd Hr) as (x & [_ Hx] & _); eauto|destruct (so_spans h d S k f t Hd Hr) as (x & _ & Hx); eauto].
  - intros k l n f v t Hn Hv Ht. pose proof (so_values h d S k l n f t v Hn Ht Hv) as V. pose proof (ty_plain h d T k l n f t v Hn Ht Hv) as Q.
    inversion V as [v' Hp Ho Hz|c txt a b T1 T2 T3 T4|x m T1 T2 T3|x ns T1 T2 T3|x a b T1 T2 T3]; subst v.
    + destruct (dt_name t) eqn:Et; try (exfalso; cbn in Hp; intuition discriminate).
      1-2: destruct Q as (i & Q); inversion Q; subst; [apply vo_int|apply vo_intbool|apply vo_intbool]; rewrite Et; cbn; tauto.
      * destruct Q as (b & ->). inversion Ho. apply vo_float; assumption.
      * destruct Q as (b & ->). apply vo_bool; assumption.
      * destruct Q as (b & ->). apply vo_str; assumption.
      * destruct Q as (b & ->). inversion Ho. apply vo_bytes; assumption.
    + apply vo_span; assumption.
    + eapply vo_node; eassumption.
    + eapply vo_many; eassumption.
    + eapply vo_nodespan; eassumption.
Qed.
