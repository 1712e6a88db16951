(** Proofs about one field: every value of a plain field is converted, refused or beyond the model. *)
From Verif Require Import PyBase PyBaseFacts Model_Text Model_Heap Model_Layer Model_Types Model_Msgpack Model_Document Model_Query Model_Coerce Model_Codec
  Spec_Text Spec_Layer Spec_Types Spec_Msgpack Spec_Document Spec_Codec Spec_Query Spec_Coerce
  Proof_Text Proof_Msgpack Proof_Query Proof_Query2 Proof_Nodes2 Proof_Coerce Proof_Coerce2 Proof_Coerce3.
From Verif Require Model_Printout Spec_Xml Proof_Xml.
From Coq Require Import QArith.
Local Open Scope Z_scope.

Lemma nearest_small b : exists x, float_of_int (if b : bool then 1 else 0) = Ok x.
Proof. destruct b; eexists; vm_compute; reflexivity. Qed.
Lemma int_zero i : (inject_Z i == 0)%Q <-> i = 0.
Proof. unfold Qeq. cbn. lia. Qed.
Lemma number_zero b x : number (VFloat b) x -> exists m e, dbl_of b = DFin m e /\ ((x == 0)%Q <-> m = 0).
Proof.
  intros H. destruct (number_num _ _ H) as (m & e & E1 & E2). exists m, e. cbn [num_of] in E1. split; [congruence|]. rewrite E2, <- (int_zero m). pose proof (pow2_pos e) as P. split.
  - intros Z. apply Qmult_integral in Z. destruct Z as [Z|Z]; [exact Z|]. rewrite Z in P. discriminate P.
  - intros Z. rewrite Z. ring.
Qed.
Lemma hollow_len h v : (exists k, py_len h v = Some (Ok k)) -> (hollow h v <-> py_len h v = Some (Ok 0)) \/ exists a b, v = VNodeSpan a b.
Proof.
  intros (k & E). destruct v; cbn [py_len] in *; try discriminate; [..|right; eauto|]; left; split; intros H.
  - inversion H. reflexivity.
  - assert (x = []) as -> by (destruct x; [reflexivity|injection H as H; unfold zlen in H; simpl in H; lia]). constructor.
  - inversion H. reflexivity.
  - assert (x = []) as -> by (destruct x; [reflexivity|injection H as H; unfold zlen in H; simpl in H; lia]). constructor.
  - inversion H. rewrite Z.sub_diag. reflexivity.
  - destruct (stop - start <? 0); [discriminate|]. injection H as H. replace stop with start by lia. constructor.
  - inversion H as [| | |m E0|]. subst. rewrite E0. reflexivity.
  - constructor. destruct (n_fieldsof h n); [reflexivity|injection H as H; unfold zlen in H; simpl in H; lia].
  - inversion H. reflexivity.
  - assert (l = []) as -> by (destruct l; [reflexivity|injection H as H; unfold zlen in H; simpl in H; lia]). constructor.
Qed.
Lemma truth h v : wf h -> proper v -> has_truth h v -> exists b, py_bool h v = Ok b /\ (b = false <-> falsy h v).
Proof.
  intros W P T. unfold py_bool. destruct (py_len h v) as [r|] eqn:E.
  - destruct v; cbn [py_len] in E; try discriminate;
    try (match type of E with Some (Ok ?k) = _ => injection E as <-; exists (negb (k =? 0)); cbn [rbind]; split; [reflexivity|] end;
      match goal with |- _ <-> falsy h ?v => assert (L := hollow_len h v (ex_intro _ _ eq_refl)) end;
      destruct L as [L|(? & ? & L)]; [|discriminate L]; cbn [py_len] in L; rewrite negb_false_iff, Z.eqb_eq; split;
      [intros K; apply fa_hollow, L; rewrite K; reflexivity|intros F; inversion F as [|v0 y Ny|v0 Ho]; subst; [inversion Ny|]; apply L in Ho; injection Ho as ->; reflexivity]).
    + cbn [proper] in P. destruct (Z.ltb_spec (stop - start) 0); [lia|]. injection E as <-. exists (negb (stop - start =? 0)). cbn [rbind]. split; [reflexivity|]. rewrite negb_false_iff, Z.eqb_eq. split.
      * intros K. replace stop with start by lia. apply fa_hollow. constructor.
      * intros F. inversion F as [|v0 y Ny|v0 Ho]; subst; [inversion Ny|]. inversion Ho. lia.
    + cbn [has_truth] in T. destruct T as (m & ns & Ei). injection E as <-. unfold nodespan_len. rewrite Ei. cbn [rbind]. exists true. split.
      * unfold zlen. cbn [List.length]. destruct (Z.eqb_spec (Z.of_nat (S (length ns))) 0); [lia|reflexivity].
      * split; [discriminate|]. intros F. inversion F as [|v0 y Ny|v0 Ho]; subst; [inversion Ny|inversion Ho].
  - destruct v; cbn [py_len] in E; try discriminate; cbn [has_truth] in T; try contradiction; eexists; (split; [reflexivity|]).
    + split; [intros _; constructor|reflexivity].
    + split.
      * intros ->. apply (fa_zero h _ (inject_Z 0)); [constructor|reflexivity].
      * intros F. inversion F as [|v0 y Ny Zy|v0 Ho]; subst; [|inversion Ho]. inversion Ny; subst; [discriminate Zy|reflexivity].
    + rewrite negb_false_iff, Z.eqb_eq. split.
      * intros ->. apply (fa_zero h _ (inject_Z 0)); [constructor|reflexivity].
      * intros F. inversion F as [|v0 y Ny Zy|v0 Ho]; subst; [|inversion Ho]. inversion Ny; subst. apply int_zero. exact Zy.
    + cbn [proper] in P. destruct (float_cases bits P) as [(x & m & e & Nx & Ed & _)|[(g & I & Ed)|[I Ed]]]; rewrite Ed.
      * destruct (number_zero bits x Nx) as (m' & e' & Ed' & Z0). rewrite Ed in Ed'. injection Ed' as <- <-. rewrite negb_false_iff, Z.eqb_eq. split.
        -- intros K. apply (fa_zero h _ x Nx). apply Z0, K.
        -- intros F. inversion F as [|v0 y Ny Zy|v0 Ho]; subst; [|inversion Ho]. destruct (number_zero bits y Ny) as (m' & e' & Ed' & Z1). rewrite Ed in Ed'. injection Ed' as <- <-. apply Z1, Zy.
      * split; [discriminate|]. intros F. inversion F as [|v0 y Ny Zy|v0 Ho]; subst; [|inversion Ho]. destruct (number_zero bits y Ny) as (m' & e' & Ed' & _). congruence.
      * split; [discriminate|]. intros F. inversion F as [|v0 y Ny Zy|v0 Ho]; subst; [|inversion Ho]. destruct (number_zero bits y Ny) as (m' & e' & Ed' & _). congruence.
    + split; [discriminate|]. intros F. inversion F as [|v0 y Ny Zy|v0 Ho]; subst; [inversion Ny|inversion Ho].
Qed.

(** the outcome of a conversion *)
Definition outcome (h : heap) (offs : list Z) (t : tname) (v : value) : Prop :=
  (exists v', converts h t v v' /\ proper v' /\ of_type t v' /\ v' <> VNone /\ encode_cell h offs t v = encode_cell h offs t v') \/
  (exists e, refuses h t v e /\ encode_cell h offs t v = Err e) \/ (uncovered t v /\ encode_cell h offs t v = Err Unmodelled).
Lemma span_first h a b : wf h -> (exists n ns, nodespan_iter h a b = Ok (n :: ns)) \/ exists e, nodespan_iter h a b = Err e.
Proof.
  intros W. destruct (nodespan_iter h a b) as [[|n ns]|e] eqn:E; [|left; eauto|right; eauto]. exfalso. destruct (span_ends h a b [] W E) as [X _]. discriminate X.
Qed.
Lemma int_outcome h offs t v : In t [TI32; TI64] -> proper v -> ~ of_type t v -> outcome h offs t v.
Proof.
  intros Ht P O. assert (Ec : forall w, w <> VNone -> encode_cell h offs t w = (let* i := py_int w in Ok [MInt i])).
  { intros w Hw. simpl in Ht. destruct Ht as [<-|[<-|[]]]; destruct w; try reflexivity; congruence. }
  assert (G : forall i, converts h t v (VInt i) -> py_int v = Ok i -> v <> VNone -> outcome h offs t v).
  { intros i C E Nv. left. exists (VInt i). split; [exact C|]. split; [exact I|]. split; [exact Ht|]. split; [discriminate|]. rewrite !Ec by (assumption || discriminate). rewrite E. reflexivity. }
  assert (B : forall e, refuses h t v e -> py_int v = Err e -> v <> VNone -> outcome h offs t v).
  { intros e R E Nv. right. left. exists e. split; [exact R|]. rewrite Ec by exact Nv. rewrite E. reflexivity. }
  assert (U : uncovered t v -> py_int v = Err Unmodelled -> v <> VNone -> outcome h offs t v).
  { intros R E Nv. right. right. split; [exact R|]. rewrite Ec by exact Nv. rewrite E. reflexivity. }
  destruct v; cbn [of_type] in O; try (exfalso; apply O; solve [exact I|exact Ht]); cbn [proper] in P.
  - apply (G (if b then 1 else 0)); [apply cv_int_bool; exact Ht|reflexivity|discriminate].
  - destruct (float_cases bits P) as [(x & m & e & Nx & Ed & Ex)|[(g & J & Ed)|[J Ed]]].
    + apply (G (truncate m e)); [|cbn [py_int]; rewrite Ed; reflexivity|discriminate]. apply (cv_int_float h t bits x); [exact Ht|exact Nx|]. eapply whole_eq; [symmetry; exact Ex|apply whole_truncate].
    + apply (B OverflowError); [eapply rf_int_inf; eauto|cbn [py_int]; rewrite Ed; reflexivity|discriminate].
    + apply (B ValueError); [eapply rf_int_nan; eauto|cbn [py_int]; rewrite Ed; reflexivity|discriminate].
  - assert (E0 : py_int (VStr x) = if ascii x then int_text x else Err Unmodelled) by reflexivity. destruct (ascii x) eqn:Ea.
    + apply ascii_spec in Ea. destruct (int_text x) as [i|e] eqn:Ei.
      * apply (G i); [|exact E0|discriminate]. apply cv_int_str; [exact Ht|exact Ea|apply int_text_ok, Ei].
      * destruct (int_text_error x e Ei) as [[-> Ns]|[-> L]]; [apply (B ValueError); [|exact E0|discriminate]|apply U; [|exact E0|discriminate]].
        -- apply (rf_int_text h t _ x); auto.
        -- apply uc_int_text; auto.
    + apply U; [|exact E0|discriminate]. apply uc_int_text; [exact Ht|]. left. intros C. apply ascii_spec in C. congruence.
  - assert (E0 : py_int (VBytes x) = if ascii x then int_text x else Err ValueError) by reflexivity. destruct (ascii x) eqn:Ea.
    + destruct (int_text x) as [i|e] eqn:Ei.
      * apply (G i); [|exact E0|discriminate]. apply cv_int_bytes; [exact Ht|apply int_text_ok, Ei].
      * destruct (int_text_error x e Ei) as [[-> Ns]|[-> L]]; [apply (B ValueError); [|exact E0|discriminate]|apply U; [|exact E0|discriminate]].
        -- apply (rf_int_text h t _ x); auto.
        -- apply uc_int_bytes; auto.
    + apply (B ValueError); [|exact E0|discriminate]. apply (rf_int_text h t _ x); auto. intros (i & S). apply spelled_ascii, ascii_spec in S. congruence.
  - apply (B TypeError); [|reflexivity|discriminate]. apply rf_number; [simpl in Ht |- *; tauto|exact I].
  - apply (B TypeError); [|reflexivity|discriminate]. apply rf_number; [simpl in Ht |- *; tauto|exact I].
  - apply (B TypeError); [|reflexivity|discriminate]. apply rf_number; [simpl in Ht |- *; tauto|exact I].
  - apply (B TypeError); [|reflexivity|discriminate]. apply rf_number; [simpl in Ht |- *; tauto|exact I].
  - apply (B TypeError); [|reflexivity|discriminate]. apply rf_number; [simpl in Ht |- *; tauto|exact I].
  - apply U; [constructor|reflexivity|discriminate].
Qed.
Lemma float_outcome h offs v : proper v -> ~ of_type TF64 v -> outcome h offs TF64 v.
Proof.
  intros P O. assert (Ec : forall w, w <> VNone -> encode_cell h offs TF64 w = (let* b := py_float w in Ok [MFloat b])) by (intros w Hw; destruct w; try reflexivity; congruence).
  assert (G : forall i b, v = VInt i \/ v = VBool (negb (i =? 0)) /\ 0 <= i <= 1 -> float_of_int i = Ok b -> py_float v = Ok b -> outcome h offs TF64 v).
  { intros i b Hv Ef E. left. exists (VFloat b). pose proof (float_nearest i b Ef) as Ne. split; [|split; [apply Ne|]; split; [reflexivity|]; split; [discriminate|]].
    - apply (cv_float_int h v i); [exact Hv|exact Ne|]. destruct (float_overflow i) as [F _]. destruct (Z.lt_ge_cases (Z.abs i) (2 ^ 1024 - 2 ^ 970)) as [L|L]; [exact L|]. apply F in L. congruence.
    - rewrite !Ec; [|discriminate|destruct Hv as [->|[-> _]]; discriminate]. rewrite E. reflexivity. }
  assert (T : no_number v -> py_float v = Err TypeError -> outcome h offs TF64 v).
  { intros Nn E. right. left. exists TypeError. split; [apply rf_number; [simpl; tauto|exact Nn]|]. rewrite Ec by (destruct v; try discriminate; contradiction). rewrite E. reflexivity. }
  assert (U : uncovered TF64 v -> py_float v = Err Unmodelled -> v <> VNone -> outcome h offs TF64 v).
  { intros R E Nv. right. right. split; [exact R|]. rewrite Ec by exact Nv. rewrite E. reflexivity. }
  destruct v; cbn [of_type] in O; try (exfalso; apply O; solve [exact I|reflexivity]).
  - destruct (nearest_small b) as (x & Ex). apply (G (if b then 1 else 0) x); [right; destruct b; split; try reflexivity; lia|exact Ex|exact Ex].
  - destruct (float_of_int i) as [b|e] eqn:E; [apply (G i b); auto|]. destruct (float_overflow i) as [F1 F2]. pose proof (F2 e E) as ->. right. left. exists OverflowError.
    split; [apply rf_float_int, F1, E|]. rewrite Ec by discriminate. cbn [py_float]. rewrite E. reflexivity.
  - apply U; [constructor; exact I|reflexivity|discriminate].
  - apply U; [constructor; exact I|reflexivity|discriminate].
  - apply T; [exact I|reflexivity].
  - apply T; [exact I|reflexivity].
  - apply T; [exact I|reflexivity].
  - apply T; [exact I|reflexivity].
  - apply T; [exact I|reflexivity].
  - apply U; [constructor|reflexivity|discriminate].
Qed.
Lemma bool_outcome h offs v : wf h -> proper v -> ~ of_type TBool v -> outcome h offs TBool v.
Proof.
  intros W P O. assert (Nv : v <> VNone) by (intros ->; apply O; exact I).
  assert (Ec : forall w, w <> VNone -> encode_cell h offs TBool w = (let* b := py_bool h w in Ok [MBool b])) by (intros w Hw; destruct w; try reflexivity; congruence).
  assert (G : has_truth h v -> outcome h offs TBool v).
  { intros T. destruct (truth h v W P T) as (b & E & F). left. exists (VBool b). split; [|split; [exact I|]; split; [reflexivity|]; split; [discriminate|]].
    - destruct b; [apply cv_true; [exact T|]; intros C; apply F in C; discriminate|apply cv_false; [exact T|apply F; reflexivity|exact Nv]].
    - rewrite !Ec by (assumption || discriminate). rewrite E. reflexivity. }
  destruct v; try (apply G; exact I).
  - destruct (span_first h left right W) as [S|(e & S)]; [apply G; exact S|]. right. left. exists e. split; [apply rf_bool_span; exact S|]. rewrite Ec by discriminate. unfold py_bool. cbn [py_len]. unfold nodespan_len. rewrite S. reflexivity.
  - right. right. split; [constructor|reflexivity].
Qed.
Lemma str_outcome h offs v : proper v -> ~ of_type TString v -> outcome h offs TString v.
Proof.
  intros P O. assert (Ec : forall w, w <> VNone -> encode_cell h offs TString w = (let* x := py_str w in Ok [MStr x])) by (intros w Hw; destruct w; try reflexivity; congruence).
  assert (G : forall x, converts h TString v (VStr x) -> py_str v = Ok x -> v <> VNone -> outcome h offs TString v).
  { intros x C E Nv. left. exists (VStr x). split; [exact C|]. split; [exact I|]. split; [reflexivity|]. split; [discriminate|]. rewrite !Ec by (assumption || discriminate). rewrite E. reflexivity. }
  assert (U : uncovered TString v -> py_str v = Err Unmodelled -> v <> VNone -> outcome h offs TString v).
  { intros R E Nv. right. right. split; [exact R|]. rewrite Ec by exact Nv. rewrite E. reflexivity. }
  destruct v; cbn [of_type] in O; try (exfalso; apply O; solve [exact I|reflexivity]); cbn [proper] in P.
  - apply (G (if b then s "True" else s "False")); [constructor|reflexivity|discriminate].
  - apply (G (Model_Printout.str_int i)); [constructor; exact (Proof_Xml.str_int_text i)|reflexivity|discriminate].
  - apply U; [constructor; exact I|reflexivity|discriminate].
  - apply (G (bytes_repr x)); [constructor; [exact P|apply bytes_repr_ok, P]|reflexivity|discriminate].
  - apply (G (firstn (Z.to_nat (stop - start)) (skipn (Z.to_nat start) ttext))); [constructor| |discriminate]. cbn [py_str]. rewrite span_str_sub; [reflexivity|]. unfold in_bounds. cbn [sp_text sp_start sp_stop]. lia.
  - apply U; [constructor; exact I|reflexivity|discriminate].
  - apply U; [constructor; exact I|reflexivity|discriminate].
  - apply U; [constructor; exact I|reflexivity|discriminate].
  - apply U; [constructor; exact I|reflexivity|discriminate].
  - apply U; [constructor|reflexivity|discriminate].
Qed.
Lemma zeros_bytes k : bytes (repeat 0%N k).
Proof. apply Forall_forall. intros x Hx. apply repeat_spec in Hx. subst. reflexivity. Qed.
Lemma bytes_outcome h offs v : wf h -> proper v -> ~ of_type TBinary v -> outcome h offs TBinary v.
Proof.
  intros W P O. assert (Nv : v <> VNone) by (intros ->; apply O; exact I).
  assert (Ec : forall w, w <> VNone -> encode_cell h offs TBinary w = (let* x := py_bytes h w in Ok [MBin x])) by (intros w Hw; destruct w; try reflexivity; congruence).
  assert (G : forall x, converts h TBinary v (VBytes x) -> bytes x -> py_bytes h v = Ok x -> outcome h offs TBinary v).
  { intros x C Bx E. left. exists (VBytes x). split; [exact C|]. split; [exact Bx|]. split; [reflexivity|]. split; [discriminate|]. rewrite !Ec by (assumption || discriminate). rewrite E. reflexivity. }
  assert (B : forall e, refuses h TBinary v e -> py_bytes h v = Err e -> outcome h offs TBinary v).
  { intros e R E. right. left. exists e. split; [exact R|]. rewrite Ec by exact Nv. rewrite E. reflexivity. }
  assert (U : uncovered TBinary v -> py_bytes h v = Err Unmodelled -> outcome h offs TBinary v).
  { intros R E. right. right. split; [exact R|]. rewrite Ec by exact Nv. rewrite E. reflexivity. }
  assert (Hw : hollow h v -> v <> VStr [] -> py_bytes h v = Ok [] -> outcome h offs TBinary v) by (intros H1 H2; apply G; [apply cv_bytes_hollow; assumption|constructor]).
  assert (Z : forall i, 0 <= i <= 1 -> v = VBool (negb (i =? 0)) -> outcome h offs TBinary v).
  { intros i Hi Hv. apply (G (repeat 0%N (Z.to_nat i))); [apply cv_bytes_int; [right; split; assumption|lia]|apply zeros_bytes|]. rewrite Hv. assert (i = 0 \/ i = 1) as [->| ->] by lia; reflexivity. }
  destruct v; cbn [of_type] in O; try (exfalso; apply O; solve [exact I|reflexivity]); cbn [proper] in P.
  - destruct b; [apply (Z 1)|apply (Z 0)]; try reflexivity; lia.
  - assert (E0 : py_bytes h (VInt i) = if (i <? - 2 ^ 63) || (2 ^ 63 <=? i) then Err OverflowError else if i <? 0 then Err ValueError else Ok (repeat 0%N (Z.to_nat i))) by reflexivity.
    destruct (Z.ltb_spec i (- 2 ^ 63)) as [L|L]; [apply (B OverflowError); [apply rf_bytes_large; lia|exact E0]|]. destruct (Z.leb_spec (2 ^ 63) i) as [L'|L']; [apply (B OverflowError); [apply rf_bytes_large; lia|exact E0]|].
    cbn [orb] in E0. destruct (Z.ltb_spec i 0) as [L0|L0]; [apply (B ValueError); [apply rf_bytes_negative; lia|exact E0]|]. apply (G _ (cv_bytes_int h (VInt i) i (or_introl eq_refl) ltac:(lia)) (zeros_bytes _) E0).
  - apply (B TypeError); [apply rf_bytes_plain; exact I|reflexivity].
  - apply (B TypeError); [apply rf_bytes_plain; exact I|reflexivity].
  - assert (E0 : py_bytes h (VSpan tname ttext start stop) = match span_str (mkSpan ttext start stop) with [] => Ok [] | _ => Err TypeError end) by (cbn [py_bytes]; destruct (Z.ltb_spec (stop - start) 0); [lia|reflexivity]).
    rewrite span_str_sub in E0 by (unfold in_bounds; cbn [sp_text sp_start sp_stop]; lia). cbn [sp_text sp_start sp_stop] in E0.
    assert (Ls : length (sub ttext start stop) = Z.to_nat (stop - start)). { unfold sub. rewrite firstn_length, skipn_length. unfold zlen in P. lia. }
    destruct (Z.eq_dec start stop) as [->|Ne].
    + apply Hw; [constructor|discriminate|]. rewrite E0. rewrite Z.sub_diag in Ls. destruct (sub ttext stop stop); [reflexivity|discriminate Ls].
    + apply (B TypeError); [apply rf_bytes_elems; [exact I|]; intros H; inversion H; lia|]. rewrite E0. destruct (sub ttext start stop); [simpl in Ls; lia|reflexivity].
  - destruct (n_fieldsof h n) eqn:E; [apply Hw; [constructor; exact E|discriminate|cbn [py_bytes]; rewrite E; reflexivity]|].
    apply (B TypeError); [apply rf_bytes_elems; [exact I|]; intros H; inversion H; congruence|cbn [py_bytes]; rewrite E; reflexivity].
  - destruct (span_first h left right W) as [(n & ns & S)|(e & S)]; [apply (B TypeError); [apply rf_bytes_span; eauto|]|apply (B e); [apply rf_bytes_lost; exact S|]]; cbn [py_bytes]; rewrite S; reflexivity.
  - destruct l as [|[n|] l]; [apply Hw; [constructor|discriminate|reflexivity]|apply (B TypeError); [apply rf_bytes_elems; [exact I|]; intros H; inversion H|reflexivity]|apply U; [constructor|reflexivity]].
  - apply (B TypeError); [apply rf_bytes_plain; exact I|reflexivity].
  - apply U; [constructor|reflexivity].
Qed.
Theorem cell_outcome h offs t v : wf h -> plain_type t -> proper v -> ~ of_type t v -> outcome h offs t v.
Proof.
  intros W Ht P O. unfold plain_type in Ht. simpl in Ht. destruct Ht as [<-|[<-|[<-|[<-|[<-|[<-|[]]]]]]].
  - apply int_outcome; [simpl; auto|exact P|exact O].
  - apply int_outcome; [simpl; auto|exact P|exact O].
  - apply float_outcome; assumption.
  - apply bool_outcome; assumption.
  - apply str_outcome; assumption.
  - apply bytes_outcome; assumption.
Qed.
