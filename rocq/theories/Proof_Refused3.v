(** The text of a document in terms of its properties (model.py 1868-1873), after Spec_Refused.v. *)
From Verif Require Import PyBase PyBaseFacts Model_Printout Model_PyRepr Model_Declare Model_Text Model_Heap Model_Layer Model_Types Model_Msgpack Model_Document Spec_Refused Proof_Refused.
From Verif Require Proof_Codec Model_Xml Spec_Xml Proof_Xml Proof_PyRepr.
Local Open Scope Z_scope.

Lemma int_text_is i x : Spec_Xml.int_text i x <-> x = str_int i.
Proof.
  split; [intros H; exact (Proof_PyRepr.int_text_unique i _ _ H (Proof_Xml.str_int_text i))|intros ->; exact (Proof_Xml.str_int_text i)].
Qed.
Lemma prop_shown o x : prop_str o = Ok x <-> shown_as o x.
Proof.
  split.
  - destruct o as [| [] | | | | | |]; cbn [prop_str]; try discriminate; try (intros H; injection H as <-; constructor).
    destruct (Z.ltb_spec 4300 (zlen (str_int (Z.abs i)))) as [L|L]; [discriminate|]. intros H. assert (x = str_int i) by congruence; clear H; subst x. constructor; [apply int_text_is; reflexivity|].
    intros y Hy. apply int_text_is in Hy. subst y. exact L.
  - intros H. destruct H; cbn [prop_str]; try reflexivity. apply int_text_is in H. subst x. specialize (H0 _ (Proof_Xml.str_int_text (Z.abs i))).
    change (Model_Xml.str_int (Z.abs i)) with (str_int (Z.abs i)) in H0. destruct (Z.ltb_spec 4300 (zlen (str_int (Z.abs i)))); [lia|reflexivity].
Qed.
Lemma prop_long o : prop_str o = Err ValueError <-> too_long o.
Proof.
  split.
  - destruct o; cbn [prop_str]; try discriminate. destruct (Z.ltb_spec 4300 (zlen (str_int (Z.abs i)))) as [L|L]; [|discriminate]. intros _.
    exists i, (str_int (Z.abs i)). split; [reflexivity|]. split; [apply int_text_is; reflexivity|exact L].
  - intros (i & y & -> & Hy & L). apply int_text_is in Hy. subst y. cbn [prop_str]. destruct (Z.ltb_spec 4300 (zlen (str_int (Z.abs i)))); [reflexivity|lia].
Qed.
Lemma repr_shown d ps x : d_props d = MMap ps -> (doc_repr d = Ok x <-> exists nl nt vs,
  Spec_Xml.int_text (zlen (d_layers d)) nl /\ Spec_Xml.int_text (zlen (d_texts d)) nt /\ Forall2 (fun kv v => shown_as (snd kv) v) ps vs /\
  x = s "Document(" ++ nl ++ s " layers, " ++ nt ++ s " texts" ++ List.concat (map (fun kv => s ", " ++ fst (fst kv) ++ s "=" ++ snd kv) (combine ps vs)) ++ s ")").
Proof.
  intros E. rewrite (repr_text d ps x E). split.
  - intros (vs & F & ->). exists (str_int (zlen (d_layers d))), (str_int (zlen (d_texts d))), vs. split; [apply int_text_is; reflexivity|]. split; [apply int_text_is; reflexivity|]. split; [|reflexivity].
    apply (Proof_Codec.Forall2_impl' _ _ _ _ F). intros a b _ H. apply prop_shown. exact H.
  - intros (nl & nt & vs & A & B & F & ->). apply int_text_is in A, B. subst nl nt. exists vs. split; [|reflexivity]. apply (Proof_Codec.Forall2_impl' _ _ _ _ F). intros a b _ H. apply prop_shown. exact H.
Qed.
Lemma repr_long d pre k v post : d_props d = MMap (pre ++ (k, v) :: post) -> (forall kv, In kv pre -> exists x, shown_as (snd kv) x) -> too_long v -> doc_repr d = Err ValueError.
Proof.
  intros E F L. unfold doc_repr. rewrite E. apply prop_long in L.
  assert (M : mapM (fun kv => let* v := prop_str (snd kv) in Ok (fst kv ++ s "=" ++ v)) (pre ++ (k, v) :: post) = Err ValueError).
  { clear E. induction pre as [|[k0 v0] pre IH]; cbn [app mapM fst snd].
    - rewrite L. reflexivity.
    - destruct (F (k0, v0) (or_introl eq_refl)) as [x Hx]. apply prop_shown in Hx. cbn [snd] in Hx. rewrite Hx. cbn [rbind]. rewrite IH; [reflexivity|]. intros kv I. apply F. right. exact I. }
  rewrite M. reflexivity.
Qed.
