(** Programs on one document leave another document alone; copies are other documents. *)
From Verif Require Import PyBase PyBaseFacts Model_Heap Model_Layer Model_Types Model_Msgpack Model_Document Model_Codec Model_Pickle
  Spec_Layer Spec_History Spec_Document Spec_Codec Spec_Program Spec_Local Proof_Heap Proof_Local Proof_Codec2 Proof_Collection2 Proof_Codec6 Proof_Document .
Local Open Scope Z_scope.

Lemma dset_layers (d : dict lid) k l k' l' : In (k', l') (dset d k l) -> l' = l \/ In (k', l') d.
Proof.
  induction d as [|[x y] d IH]; cbn [dset]; [intros [[= _ <-]|[]]; auto|]. destruct (str_eqb k x); simpl.
  - intros [[= _ <-]|I]; auto.
  - intros [I|I]; auto. destruct (IH I); auto.
Qed.
Lemma ddel_layers (d : dict lid) k x : In x (ddel d k) -> In x d.
Proof. induction d as [|[y z] d IH]; cbn [ddel]; [auto|]. destruct (str_eqb k y); simpl; [auto|]. intros [I|I]; auto. Qed.
Section P.
Context {K : Type} (leb : K -> K -> bool) (a : area).
Lemma from_drun h0 h d o : from a h0 h -> (forall l, doc_layer d l -> a_layer a l) -> dwithin a o ->
  from a h0 (fst (drun leb h d o)) /\ (forall l, doc_layer (snd (drun leb h d o)) l -> a_layer a l).
Proof.
  intros F L W. destruct o; cbn [drun dwithin] in *.
  - split; [exact F|]. exact L.
  - split; [exact F|]. cbn [snd]. unfold set_maintext. destruct (dmem _ _); exact L.
  - unfold add_layer. split.
    + exact (from_alloc_layer a h0 h (new_layer name fs) F eq_refl).
    + cbn [fst snd alloc_layer]. intros l [k I]. cbn [d_layers] in I. apply dset_layers in I. destruct I as [->|I]; [|apply L; exists k; exact I].
      apply (cl_newl _ _ (proj1 F)). apply le_n.
  - split; [exact F|]. cbn [snd]. unfold remove_layer. destruct (negb _); [exact L|]. destruct (referencing _ _ _) as [q|e]; [|exact L]. cbn [rbind].
    destruct (_ && _); [exact L|]. intros l [k I]. apply L. exists k. exact (ddel_layers _ _ _ I).
  - split; [exact F|exact L].
  - split; [|exact L]. cbn [fst]. apply from_encode; auto.
  - split; [|exact L]. cbn [fst]. apply from_exec; auto.
Qed.
Lemma from_drun_all h0 : forall os h d, from a h0 h -> (forall l, doc_layer d l -> a_layer a l) -> Forall (dwithin a) os ->
  from a h0 (fst (drun_all leb h d os)) /\ (forall l, doc_layer (snd (drun_all leb h d os)) l -> a_layer a l).
Proof.
  unfold drun_all. induction os as [|o os IH]; intros h d F L W; cbn [fold_left]; [split; auto|]. inversion W as [|? ? W1 W2]; subst.
  destruct (from_drun h0 h d o F L W1) as [F1 L1]. cbn [fst snd] in *. destruct (drun leb h d o) as [h1 d1]. exact (IH h1 d1 F1 L1 W2).
Qed.
End P.
Lemma programs_local {K} (leb : K -> K -> bool) a h d os : closed_area a h -> (forall l, doc_layer d l -> a_layer a l) -> Forall (dwithin a) os ->
  rest_same a h (fst (drun_all leb h d os)).
Proof. intros C L W. exact (proj2 (proj1 (from_drun_all leb a h os h d (from_refl a h C) L W))). Qed.

(** everything but the objects of d2 *)
Definition others (h : heap) (d2 : doc) : area := mkArea (fun n => ~ doc_part h d2 n) (fun l => ~ doc_layer d2 l).
Lemma others_closed h d2 : wf h -> known h d2 -> closed_area (others h d2) h.
Proof.
  intros W Kn. split; cbn.
  - intros l n A I (l' & D & E). apply In_nth_error in I. destruct I as [i I]. rewrite (proj2 (ok_slot _ _ (wf_layers _ W l) i n I)) in E. injection E as <-. exact (A D).
  - intros n l A E D. apply A. exists l. auto.
  - intros n L (l & _ & E). rewrite (wf_fresh_n _ W n L) in E. discriminate.
  - intros l L [k I]. specialize (Kn k l I). lia.
Qed.
Lemma documents_apart {K} (leb : K -> K -> bool) h d1 d2 os : wf h -> known h d2 -> (forall l, doc_layer d1 l -> ~ doc_layer d2 l) -> Forall (apart h d2) os ->
  doc_same h (fst (drun_all leb h d1 os)) d2.
Proof.
  intros W Kn D A. destruct (programs_local leb (others h d2) h d1 os (others_closed h d2 W Kn) D) as [R1 R2].
  - revert A. apply Forall_impl. intros o A. destruct o; cbn in *; auto. destruct A as [A1 A2]. split; apply Forall_forall; [exact A1|exact A2].
  - split; [intros l Dl; apply R2; cbn; tauto|intros n Dn; apply R1; cbn; tauto].
Qed.

(** copies *)
Lemma combine_seq_ge (ks : list pystr) s n k l : In (k, l) (combine ks (seq s n)) -> (s <= l)%nat.
Proof. intros I. apply in_combine_r in I. apply in_seq in I. lia. Qed.
Lemma decode_fresh h b h2 d' : msgpack_decode h b = (h2, Ok d') -> forall l, doc_layer d' l -> (h_lnext h <= l)%nat.
Proof.
  unfold msgpack_decode. destruct (parse b) as [p|e]; [|discriminate]. unfold build. destruct (check_fields _ _) as [[]|e]; [|discriminate]. cbn [rbind]. destruct (build_nodes _ _ _ _ _) as [nodes|e]; [|discriminate].
  intros E. injection E as _ <-. intros l [k I]. exact (combine_seq_ge _ _ _ _ _ I).
Qed.
Lemma setstate_decode h b : doc_setstate h b = msgpack_decode h b.
Proof. unfold doc_setstate. destruct (msgpack_decode h b) as [h1 [[p t l]|e]]; reflexivity. Qed.
Lemma encode_nnext h d ex tv h1 r : wf h -> known h d -> msgpack_encode h d ex tv = (h1, r) -> h_nnext h1 = h_nnext h.
Proof.
  intros W Kn E. destruct (msgpack_encode_heap _ _ _ _ _ _ E) as (o & Ec & _). destruct (compile_heap _ _ _ _ _ _ Ec) as (pre & suf & E1 & -> & _).
  clear. revert h. induction pre as [|l pre IH]; intros h; cbn [fold_left]; [reflexivity|]. rewrite IH. clear.
  assert (R : forall ns h i, h_nnext (renumber h i ns) = h_nnext h) by (induction ns as [|n ns IH]; intros g i; cbn [renumber]; [reflexivity|rewrite IH; reflexivity]).
  assert (C : forall t g k i, h_nnext (fst (compact_loop g l k i t)) = h_nnext g).
  { induction t as [|t IH]; intros g k i; cbn [compact_loop]; [reflexivity|]. destruct (nth_error _ _) as [[n|]|]; rewrite IH; reflexivity. }
  unfold layer_prepare, compact. destruct (_ =? _); [apply R|]. match goal with |- context [compact_loop ?g l 0 0 ?t] => pose proof (C t g 0%nat 0%nat) as Q; destruct (compact_loop g l 0 0 t) end.
  cbn [fst] in Q. cbn. rewrite Q. apply R.
Qed.
Lemma copy_spec h d h1 b : doc_ok h d -> doc_getstate h d = (h1, Ok b) ->
  exists h2 d', doc_copy h d = (h2, Ok d') /\ same_doc h d h2 d' /\ looks_same h h1 /\ untouched h1 h2 /\ wf h2 /\ known h2 d' /\ known h2 d /\
    (forall l, doc_layer d' l -> (h_lnext h <= l)%nat) /\ (forall n, doc_part h2 d' n -> (h_nnext h <= n)%nat).
Proof.
  intros D E. unfold doc_copy. rewrite E. unfold doc_getstate in E. destruct (encode_same h d false true h1 (Ok b) (do_wf _ _ D) (do_known _ _ D) E) as (W1 & S1 & L1).
  pose proof (encode_nnext h d false true h1 (Ok b) (do_wf _ _ D) (do_known _ _ D) E) as N1.
  destruct (msgpack_round h d false true h1 b [] h1 D E W1) as (h2 & d' & A & B & W2 & U & K2 & _). rewrite app_nil_r in A. exists h2, d'. rewrite setstate_decode.
  assert (Fl : forall l, doc_layer d' l -> (h_lnext h <= l)%nat) by (rewrite <- L1; exact (decode_fresh _ _ _ _ A)).
  split; [exact A|]. split; [exact B|]. split; [exact S1|]. split; [exact U|]. split; [exact W2|]. split; [exact K2|]. split; [|split; [exact Fl|]].
  - intros k l I. destruct U as (_ & _ & _ & U4). pose proof (do_known _ _ D k l I). lia.
  - intros n (l & Dl & C). destruct (Nat.le_gt_cases (h_nnext h) n) as [Q|Q]; [exact Q|exfalso]. destruct U as (U1 & _).
    unfold n_collof in C. rewrite U1 in C by lia. destruct (ok_coll _ _ (wf_layers _ W1 l) n C) as (i & _ & I). rewrite (wf_fresh_l _ W1) in I; [destruct i; discriminate|].
    rewrite L1. apply Fl. exact Dl.
Qed.
Lemma copy_apart {K} (leb : K -> K -> bool) h d h1 b h2 d' os : doc_ok h d -> doc_getstate h d = (h1, Ok b) -> doc_copy h d = (h2, Ok d') ->
  (Forall (apart h2 d) os -> doc_same h2 (fst (drun_all leb h2 d' os)) d) /\
  (Forall (apart h2 d') os -> doc_same h2 (fst (drun_all leb h2 d os)) d').
Proof.
  intros D E C. destruct (copy_spec h d h1 b D E) as (h2' & d'' & C' & _ & _ & _ & W2 & K2' & K2 & Fl & _). rewrite C in C'. injection C' as <- <-. split; intros A.
  - apply documents_apart; auto. intros l Dl [k I]. specialize (Fl l Dl). pose proof (do_known _ _ D k l I). lia.
  - apply documents_apart; auto. intros l [k I] Dl. specialize (Fl l Dl). pose proof (do_known _ _ D k l I). lia.
Qed.
Lemma copy_again h d h1 b h2 d' : doc_ok h d -> doc_getstate h d = (h1, Ok b) -> doc_copy h d = (h2, Ok d') -> exists h3, doc_getstate h2 d' = (h3, Ok b).
Proof.
  intros D E C. unfold doc_copy in C. rewrite E, setstate_decode in C. unfold doc_getstate in *.
  destruct (encode_same h d false true h1 (Ok b) (do_wf _ _ D) (do_known _ _ D) E) as (W1 & _).
  destruct (encode_stable h d false true h1 b h1 D E W1) as (h2' & d'' & A & B). rewrite C in A. injection A as <- <-. apply B.
Qed.
Lemma copy_error h d h1 e : wf h -> known h d -> doc_getstate h d = (h1, Err e) -> doc_copy h d = (h1, Err e) /\ looks_same h h1.
Proof.
  intros W Kn E. unfold doc_copy. rewrite E. split; [reflexivity|]. exact (proj1 (proj2 (encode_same h d false true h1 _ W Kn E))).
Qed.
