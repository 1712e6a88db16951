(** Properties C01-C07: texts and text spans. *)
From Verif Require Import PyBase Model_Text Spec_Text Proof_Text.
Local Open Scope Z_scope.

(** Concrete data for the examples: " ab c ", and a classifier that knows the blank. *)
Definition blank (c : N) : bool := N.eqb c 32.
Definition ex_text : pystr := s " ab c ".
Definition ex_span : span := mkSpan ex_text 1 5.

(** C01 *)
Theorem C01_text_slice : forall t a b,
  (~ reversed (zlen t) a b ->
     exists x, text_slice t a b = Ok x /\ sp_text x = t /\ in_bounds x /\ span_str x = doc_slice t a b /\
               sp_start x = clamp (zlen t) (doc_start (zlen t) a)) /\
  (reversed (zlen t) a b -> text_slice t a b = Err DataValidationError).
Proof. exact text_slice_main. Qed.
Print Assumptions C01_text_slice.
Example C01_case : text_slice ex_text (Some (-5)) (Some 40) = Ok (mkSpan ex_text 1 6)
  /\ doc_slice ex_text (Some (-5)) (Some 40) = s "ab c "
  /\ text_slice ex_text (Some 4) (Some 2) = Err DataValidationError.
Proof. vm_compute. repeat split. Qed.

(** C02 *)
Theorem C02_text_pair : forall t a b,
  (0 <= a <= b /\ b <= zlen t -> text_pair t a b = Ok (mkSpan t a b)) /\
  (~ (0 <= a <= b /\ b <= zlen t) -> text_pair t a b = Err DataValidationError).
Proof. exact text_pair_strict. Qed.
Print Assumptions C02_text_pair.
Example C02_case : text_pair ex_text 2 6 = Ok (mkSpan ex_text 2 6) /\ text_pair ex_text 2 7 = Err DataValidationError
  /\ text_pair ex_text (-1) 3 = Err DataValidationError.
Proof. vm_compute. repeat split. Qed.

(** C03 *)
Theorem C03_span_slice : forall x a b, in_bounds x ->
  (~ reversed (zlen (span_str x)) a b ->
     exists y, span_slice x a b = Ok y /\ inside y x /\ in_bounds y /\ span_str y = doc_slice (span_str x) a b) /\
  (reversed (zlen (span_str x)) a b -> span_slice x a b = Err DataValidationError).
Proof. exact span_slice_main. Qed.
Print Assumptions C03_span_slice.
Example C03_case : in_bounds ex_span /\ span_slice ex_span (Some (-3)) None = Ok (mkSpan ex_text 2 5)
  /\ span_str (mkSpan ex_text 2 5) = s "b c".
Proof. vm_compute. repeat split; intros; discriminate. Qed.
(** ... and the pair of [text_to] and [span_to] agree *)
Theorem C03_span_to : forall x r, in_bounds x -> in_bounds r -> sp_text r = sp_text x -> sp_start x <= sp_stop r ->
  exists y, span_to x r = Ok y /\ span_str y = span_text_to x r /\ sp_start y = sp_start x /\ sp_stop y = sp_stop r.
Proof. exact span_to_main. Qed.
Print Assumptions C03_span_to.

(** C04.  Full statement: [forall x i, in_bounds x -> span_int x i = doc_item (span_str x) i]. *)
Theorem C04_span_int_partial : forall x i, in_bounds x -> - zlen (span_str x) <= i < zlen (span_str x) ->
  span_int x i = doc_item (span_str x) i /\ exists c, span_int x i = Ok c.
Proof. exact span_int_main. Qed.
Print Assumptions C04_span_int_partial.
Example C04_case : - zlen (span_str ex_span) <= -2 < zlen (span_str ex_span) /\ span_int ex_span (-2) = Ok 32%N.
Proof. vm_compute. repeat split; intros; discriminate. Qed.
(** What happens instead: below the range the first character, above it the one after the span. *)
Theorem C04_span_int_below : forall x i, in_bounds x -> i < - span_len x -> span_int x i = py_getitem (sp_text x) (sp_start x).
Proof. exact span_int_below. Qed.
Print Assumptions C04_span_int_below.
Theorem C04_span_int_above : forall x i, in_bounds x -> span_len x <= i -> span_int x i = py_getitem (sp_text x) (sp_stop x).
Proof. exact span_int_above. Qed.
Print Assumptions C04_span_int_above.
Theorem C04_span_int_refuted : exists x i c, in_bounds x /\ doc_item (span_str x) i = Err IndexError /\ span_int x i = Ok c.
Proof. exists (mkSpan ex_text 1 4), 3, 99%N. vm_compute. repeat split; intros; discriminate. Qed.
Print Assumptions C04_span_int_refuted.

(** C05 *)
Theorem C05_covered_by : forall x y, sp_start x < sp_stop x ->
  (covered_by x y = true <-> forall p, pos_in p x -> pos_in p y).
Proof. exact covered_by_iff. Qed.
Print Assumptions C05_covered_by.
Theorem C05_intersected_by : forall x y, sp_start x < sp_stop x -> sp_start y < sp_stop y ->
  (intersected_by x y = true <-> exists p, pos_in p x /\ pos_in p y).
Proof. exact intersected_by_iff. Qed.
Print Assumptions C05_intersected_by.
Theorem C05_intersected_sym : forall x y, intersected_by x y = intersected_by y x.
Proof. exact intersected_sym. Qed.
Print Assumptions C05_intersected_sym.
Theorem C05_covered_refl : forall x, covered_by x x = true.
Proof. exact covered_refl. Qed.
Print Assumptions C05_covered_refl.
Theorem C05_covered_trans : forall x y z, covered_by x y = true -> covered_by y z = true -> covered_by x z = true.
Proof. exact covered_trans. Qed.
Print Assumptions C05_covered_trans.
Theorem C05_tuple_forms : forall x y,
  covered_by_tuple x (sp_start y) (sp_stop y) = covered_by x y /\
  intersected_by_tuple x (sp_start y) (sp_stop y) = intersected_by x y /\
  is_covered_by x y = covered_by x y.
Proof. intros. repeat split. Qed.
Print Assumptions C05_tuple_forms.
(** an empty span is covered exactly when its position lies between the ends *)
Theorem C05_covered_empty : forall x y, sp_start x = sp_stop x ->
  (covered_by x y = true <-> sp_start y <= sp_start x <= sp_stop y).
Proof. intros x y H. rewrite covered_exact. rewrite <- H. tauto. Qed.
Print Assumptions C05_covered_empty.
Example C05_case : covered_by (mkSpan ex_text 2 4) ex_span = true /\ covered_by ex_span (mkSpan ex_text 2 4) = false
  /\ intersected_by (mkSpan ex_text 4 6) ex_span = true /\ intersected_by (mkSpan ex_text 5 6) ex_span = false.
Proof. vm_compute. repeat split. Qed.

(** C06.  Full statement: as below with [last_ok isspace y] instead of the last implication. *)
Theorem C06_trim_partial : forall isspace x, in_bounds x ->
  exists y, trim isspace x = Ok y /\ inside y x /\ in_bounds y /\
    (exists pre post, span_str x = pre ++ span_str y ++ post /\
        all_space isspace pre /\ all_space isspace post) /\
    first_ok isspace y /\
    ((forall c, nth_error (sp_text x) (Z.to_nat (sp_start x)) = Some c -> isspace c = false) -> last_ok isspace y).
Proof. exact trim_main. Qed.
Print Assumptions C06_trim_partial.
Example C06_case : trim blank (mkSpan ex_text 1 6) = Ok (mkSpan ex_text 1 5) /\ in_bounds (mkSpan ex_text 1 6).
Proof. vm_compute. repeat split; intros; discriminate. Qed.
Theorem C06_trim_refuted : exists x y, in_bounds x /\ trim blank x = Ok y /\ ~ last_ok blank y.
Proof.
  exists (mkSpan ex_text 0 6), (mkSpan ex_text 1 6). split; [vm_compute; repeat split; intros; discriminate|].
  split; [reflexivity|]. intros H. destruct (H ltac:(reflexivity)) as (c & E & F).
  vm_compute in E. injection E as <-. discriminate F.
Qed.
Print Assumptions C06_trim_refuted.

(** C07 *)
Theorem C07_segmentation : forall t c, Forall (fun o => 0 <= o <= zlen t) c ->
  join_segs (text_compile t (sorted_offsets t c)) = t /\
  seg_offsets 0 (text_compile t (sorted_offsets t c)) = sorted_offsets t c.
Proof. exact segmentation. Qed.
Print Assumptions C07_segmentation.
Theorem C07_offset_ids : forall t c o, Forall (fun o => 0 <= o <= zlen t) c -> In o (0 :: zlen t :: c) ->
  exists i, offset_id (sorted_offsets t c) o = Some (Z.of_nat i) /\
            nth_error (seg_offsets 0 (text_compile t (sorted_offsets t c))) i = Some o.
Proof. exact segmentation_ids. Qed.
Print Assumptions C07_offset_ids.
Example C07_case : Forall (fun o => 0 <= o <= zlen ex_text) [4; 1; 4; 6] /\
  text_compile ex_text (sorted_offsets ex_text [4; 1; 4; 6]) = [s " "; s "ab "; s "c "].
Proof. split; [repeat constructor; vm_compute; intros; discriminate|reflexivity]. Qed.
