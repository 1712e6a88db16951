(** What children_of, trim and text of node spans do in the cases that C44, C06 and C61 leave out. *)
From Verif Require Import PyBase PyBaseFacts Model_Heap Model_Layer Model_Types Model_Text Model_Graph Model_Nodes.
From Verif Require Import Spec_Layer Spec_Text Spec_Nodes Spec_Graph Spec_Exact Proof_Heap Proof_Text Proof_Nodes2.
Local Open Scope Z_scope.

(** *** children_of *)
Lemma yielder_exact fields f n h : field_fits fields h n f -> all_nodes h n f -> forall y, yielder_of fields f = Ok y -> y h (VNode n) = Ok (map VNode (nodes_in h n f)).
Proof.
  intros (t & D & T) A y. unfold yielder_of, dgetE. rewrite D. cbn [rbind]. unfold nodes_in, all_nodes in *. fold (n_fieldsof h n) in T.
  destruct T as [[E T]|[E T]]; rewrite E; intros Y; assert (Y' := f_equal (fun x => match x with Ok y => y h (VNode n) | Err e => Err e end) Y); cbn in Y'; rewrite <- Y'; clear Y Y'.
  - unfold node_iter, field_in. cbn [rbind]. destruct (dget (n_fieldsof h n) f) as [v|] eqn:G; [|reflexivity].
    destruct (T v eq_refl) as (m & ->). reflexivity.
  - unfold node_array_iter, field_in. cbn [rbind]. destruct (dget (n_fieldsof h n) f) as [v|] eqn:G; [|reflexivity].
    destruct (T v eq_refl) as (l & ->). cbn [iterate]. f_equal. specialize (A l eq_refl). clear -A.
    induction l as [|[m|] l IH]; [reflexivity| |exfalso; apply A; left; reflexivity]. simpl. f_equal. apply IH. intros I. apply A. right. exact I.
Qed.
Lemma last_map {A B} (g : A -> B) l d : List.last (map g l) (g d) = g (List.last l d).
Proof. induction l as [|x [|y l] IH]; [reflexivity|reflexivity|]. exact IH. Qed.
Lemma compose_walked fields h : forall fs ys, (forall n f, In f fs -> field_fits fields h n f /\ all_nodes h n f) -> mapM (yielder_of fields) fs = Ok ys ->
  forall n, compose h ys (VNode n) = Ok (map VNode (walked h n fs)).
Proof.
  induction fs as [|f fs IH]; intros ys F M n; simpl in M.
  - injection M as <-. reflexivity.
  - destruct (yielder_of fields f) as [y|] eqn:Ey; [|discriminate]. cbn [rbind] in M. destruct (mapM (yielder_of fields) fs) as [ys'|] eqn:Em; [|discriminate].
    cbn [rbind] in M. assert (M' : ys = y :: ys') by congruence. subst ys. cbn [compose].
    destruct (F n f (or_introl eq_refl)) as (Fi & Al). rewrite (yielder_exact _ _ _ _ Fi Al y Ey). cbn [rbind].
    rewrite last_map. rewrite (IH ys' (fun m g I => F m g (or_intror I)) eq_refl). cbn [rbind walked]. rewrite map_app. reflexivity.
Qed.
Lemma children_walked fields h fs : (2 <= length fs)%nat -> (forall n f, In f fs -> field_fits fields h n f /\ all_nodes h n f) ->
  exists y, children_of fields fs = Ok y /\ forall n, y h (VNode n) = Ok (map VNode (walked h n fs)).
Proof.
  intros L F. assert (M : exists ys, mapM (yielder_of fields) fs = Ok ys).
  { clear L. induction fs as [|f fs IH]; [exists []; reflexivity|]. simpl. destruct (IH (fun n g I => F n g (or_intror I))) as (ys & ->).
    destruct (F 0%nat f (or_introl eq_refl)) as ((t & D & T) & _). unfold yielder_of at 1, dgetE. rewrite D. cbn [rbind]. destruct T as [[-> _]|[-> _]]; cbn [rbind]; eauto. }
  destruct M as (ys & M). exists (fun h => compose h ys). split.
  - unfold children_of. destruct fs as [|a [|b fs]]; [simpl in L; lia|simpl in L; lia|]. rewrite M. reflexivity.
  - intros n. apply (compose_walked fields h fs ys F M).
Qed.

(** *** trim *)
Lemma trim_leading isspace x : in_bounds x -> sp_start x < sp_stop x ->
  (forall c, nth_error (sp_text x) (Z.to_nat (sp_start x)) = Some c -> isspace c = true) ->
  exists pre post, span_str x = pre ++ post /\ all_space isspace pre /\ match post with [] => True | c :: _ => isspace c = false end /\
  trim isspace x = Ok (mkSpan (sp_text x) (match post with [] => sp_start x | _ => sp_start x + zlen pre end) (match post with [] => sp_start x | _ => sp_stop x end)).
Proof.
  intros Hx L Hs. pose proof Hx as (H1 & H2 & H3). unfold trim, trim_offsets. unfold span_len.
  destruct (Z.eqb_spec (sp_stop x - sp_start x) 0) as [E0|E0]; [lia|].
  destruct (nth_error_in_bounds x Hx ltac:(lia)) as (c & r & Hc & Hg). rewrite Hg. cbn [rbind].
  assert (Hc0 : nth_error (sp_text x) (Z.to_nat (sp_start x)) = Some c).
  { unfold py_getitem in Hg. rewrite py_index_nonneg in Hg by lia.
    destruct (nth_error (sp_text x) (Z.to_nat (sp_start x))) as [d|]; congruence. }
  rewrite (Hs c Hc0). cbn [rbind].
  destruct (trim_forward_spec isspace (span_str x) (sp_start x)) as (pre & post & Es & Hpre & Hpos & Hpost).
  exists pre, post. split; [exact Es|]. split; [exact Hpre|]. split; [exact Hpost|]. rewrite Hpos.
  assert (Hlen : zlen (span_str x) = sp_stop x - sp_start x) by (rewrite span_len_str by assumption; reflexivity).
  assert (Hlen2 : zlen (span_str x) = zlen pre + zlen post) by (rewrite Es; unfold zlen; rewrite app_length; lia).
  assert (Hp1 : 1 <= zlen pre).
  { destruct pre as [|p pre]; [|unfold zlen; simpl length; lia]. simpl in Es. subst post. rewrite Hc in Hpost. simpl in Hpost. rewrite (Hs c Hc0) in Hpost. discriminate. }
  destruct post as [|d post].
  - unfold zlen in Hlen2 at 3. simpl in Hlen2. destruct (Z.leb_spec (sp_stop x) (sp_start x + zlen pre)); [|lia]. cbn [rbind]. unfold new_span.
    rewrite Z.leb_refl. reflexivity.
  - unfold zlen in Hlen2 at 3. simpl length in Hlen2. destruct (Z.leb_spec (sp_stop x) (sp_start x + zlen pre)); [lia|].
    destruct (Z.eqb_spec (sp_start x + zlen pre) (sp_start x)); [lia|]. cbn [negb orb]. unfold text_offset.
    destruct (Z.leb_spec 0 (sp_start x + zlen pre)); [|lia]. destruct (Z.leb_spec (sp_start x + zlen pre) (zlen (sp_text x))); [|lia]. cbn [andb rbind].
    destruct (Z.leb_spec 0 (sp_stop x)); [|lia]. destruct (Z.leb_spec (sp_stop x) (zlen (sp_text x))); [|lia]. cbn [andb rbind]. unfold new_span.
    destruct (Z.leb_spec (sp_start x + zlen pre) (sp_stop x)); [reflexivity|lia].
Qed.

(** *** NodeSpan.text *)
Lemma two_texts h a b f name name' t t' p q p' q' : dget (n_fieldsof h a) f = Some (VSpan name t p q) -> dget (n_fieldsof h b) f = Some (VSpan name' t' p' q') -> 0 <= p <= zlen t -> 0 <= q' ->
  nodespan_text h a b f = Ok (chars t p q') /\
  nodespan_textspan h a b f = (if Z.min q' (zlen t) <? p then Err DataValidationError else Ok (VSpan name t p (Z.min q' (zlen t)))).
Proof.
  intros Ga Gb P Q. unfold nodespan_text, nodespan_textspan, dgetE. rewrite Ga, Gb. cbn [rbind span_of_value]. split.
  - unfold span_text_to, chars. rewrite doc_slice_py. reflexivity.
  - unfold span_to, text_slice. cbn [sp_text sp_start sp_stop]. unfold slice_start, slice_stop, slice_norm.
    replace (p <? 0) with false by (symmetry; apply Z.ltb_ge; lia). replace (q' <? 0) with false by (symmetry; apply Z.ltb_ge; lia).
    replace (Z.min p (zlen t)) with p by lia. destruct (Z.ltb_spec (Z.min q' (zlen t)) p) as [L|L]; [reflexivity|].
    replace (zlen t <? p) with false by (symmetry; apply Z.ltb_ge; lia). replace (zlen t <? Z.min q' (zlen t)) with false by (symmetry; apply Z.ltb_ge; lia).
    replace (Z.min q' (zlen t) <? 0) with false by (symmetry; apply Z.ltb_ge; lia).
    cbn [orb]. unfold new_span. destruct (Z.leb_spec p (Z.min q' (zlen t))); [reflexivity|lia].
Qed.
