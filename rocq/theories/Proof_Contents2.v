(** The contents of a document are unique. *)
From Verif Require Import PyBase PyBaseFacts Model_Text Model_Heap Model_Layer Model_Types Model_Msgpack Model_Document Model_Codec
  Spec_Layer Spec_Types Spec_Msgpack Spec_Document Spec_Codec Proof_Heap Proof_Layer Proof_Layer2 Proof_Layer3 Proof_History Proof_Layer4 Proof_Types
  Proof_Text Proof_Msgpack Proof_Document Proof_Layout Proof_Codec Proof_Codec2 Spec_Index Spec_Spell Proof_Spell2 Proof_Spell3 Spec_Contents Proof_Contents.
Local Open Scope Z_scope.
Local Arguments s : simpl never.

Lemma Forall2_fun {A B} (R : A -> B -> Prop) (l : list A) : (forall x y z, In x l -> R x y -> R x z -> y = z) -> forall m n, Forall2 R l m -> Forall2 R l n -> m = n.
Proof.
  induction l as [|x l IH]; intros H m n F G; inversion F as [|? y ? m' F1 F2]; inversion G as [|? z ? n' G1 G2]; subst; [reflexivity|].
  f_equal; [eapply H; [left; reflexivity|assumption|assumption]|]. apply IH; auto. intros a b c Ha. apply H. right. assumption.
Qed.

(** ** parts of a text *)
Definition solid (ps : list pystr) : Prop := forall p, In p ps -> p <> [].
Lemma zlen_app {A} (a b : list A) : zlen (a ++ b) = zlen a + zlen b.
Proof. unfold zlen. rewrite app_length. lia. Qed.
Lemma solid_pos p : p <> [] -> 0 < zlen (p : pystr).
Proof. destruct p; [congruence|]. unfold zlen. simpl. lia. Qed.
Lemma part_cons p ps x : (exists i, part_at (p :: ps) i x) <-> x = 0 \/ exists i, part_at ps i (x - zlen p).
Proof.
  split.
  - intros ([|i] & Hi & ->); cbn [firstn List.concat]; [left; reflexivity|]. right. exists i. cbn [length] in Hi. split; [lia|]. rewrite zlen_app. lia.
  - intros [->|(i & Hi & Hx)]; [exists 0%nat; split; [lia|reflexivity]|]. exists (S i). split; [cbn [length]; lia|]. cbn [firstn List.concat]. rewrite zlen_app. lia.
Qed.
Lemma part_nonneg ps i x : part_at ps i x -> 0 <= x.
Proof. intros [_ ->]. apply zlen_nonneg. Qed.
Lemma parts_unique ps : forall qs, solid ps -> solid qs -> List.concat ps = List.concat qs ->
  (forall x, (exists i, part_at ps i x) <-> (exists i, part_at qs i x)) -> ps = qs.
Proof.
  induction ps as [|p ps IH]; intros qs Sp Sq E H.
  - destruct qs as [|q qs]; [reflexivity|]. exfalso. cbn [List.concat] in E. symmetry in E. apply app_eq_nil in E. apply (Sq q); [left; reflexivity|tauto].
  - destruct qs as [|q qs]; [exfalso; cbn [List.concat] in E; apply app_eq_nil in E; apply (Sp p); [left; reflexivity|tauto]|].
    pose proof (solid_pos p (Sp p (or_introl eq_refl))) as Lp. pose proof (solid_pos q (Sq q (or_introl eq_refl))) as Lq.
    assert (L : zlen p = zlen q).
    { assert (A : zlen q <= zlen p).
      { destruct (proj1 (part_cons q qs (zlen p))) as [G|(i & G)]; [apply H, part_cons; right; exists 0%nat; split; [lia|cbn [firstn List.concat]; unfold zlen at 3; simpl; lia]|lia|].
        apply part_nonneg in G. lia. }
      assert (B : zlen p <= zlen q).
      { destruct (proj1 (part_cons p ps (zlen q))) as [G|(i & G)]; [apply H, part_cons; right; exists 0%nat; split; [lia|cbn [firstn List.concat]; unfold zlen at 3; simpl; lia]|lia|].
        apply part_nonneg in G. lia. }
      lia. }
    cbn [List.concat] in E. assert (Ep : p = q /\ List.concat ps = List.concat qs).
    { assert (L' : length p = length q) by (unfold zlen in L; unfold pystr in *; lia). clear - E L'. revert q E L'.
      induction p as [|c p IHp]; intros [|c' q] E L'; try discriminate; cbn [app] in E; [auto|]. injection E as -> E. simpl in L'. destruct (IHp q E) as [-> ?]; [congruence|auto]. }
    destruct Ep as [<- Ec]. f_equal. apply IH; [intros y Hy; apply Sp; right; assumption|intros y Hy; apply Sq; right; assumption|assumption|].
    intros x. split; intros G.
    + destruct (proj1 (part_cons p qs (x + zlen p))) as [G'|G']; [apply H, part_cons; right; replace (x + zlen p - zlen p) with x by lia; assumption| |replace (x + zlen p - zlen p) with x in G' by lia; assumption].
      destruct G as [i G]. apply part_nonneg in G. lia.
    + destruct (proj1 (part_cons p ps (x + zlen p))) as [G'|G']; [apply H, part_cons; right; replace (x + zlen p - zlen p) with x by lia; assumption| |replace (x + zlen p - zlen p) with x in G' by lia; assumption].
      destruct G as [i G]. apply part_nonneg in G. lia.
Qed.
Lemma part_fun ps : solid ps -> forall i j x, part_at ps i x -> part_at ps j x -> i = j.
Proof.
  induction ps as [|p ps IH]; intros Sp i j x [Hi Ei] [Hj Ej]; [simpl in Hi, Hj; lia|].
  pose proof (solid_pos p (Sp p (or_introl eq_refl))) as Lp.
  destruct i as [|i], j as [|j]; cbn [firstn List.concat length] in *; [reflexivity| | |].
  - rewrite zlen_app in Ej. pose proof (zlen_nonneg (List.concat (firstn j ps))). unfold zlen at 1 in Ei. simpl in Ei. lia.
  - rewrite zlen_app in Ei. pose proof (zlen_nonneg (List.concat (firstn i ps))). unfold zlen at 1 in Ej. simpl in Ej. lia.
  - rewrite zlen_app in Ei, Ej. f_equal. apply (IH (fun y Hy => Sp y (or_intror Hy)) i j (x - zlen p)); split; lia.
Qed.

(** ** cells *)
Lemma targets_fun t x y : targets_layer t x -> targets_layer t y -> x = y.
Proof. intros [_ A] [_ B]. congruence. Qed.
Lemma targets_text_fun t x y : targets_text t x -> targets_text t y -> x = y.
Proof. intros [_ A] [_ B]. congruence. Qed.
Section Unique.
Variables (h : heap) (d : doc).
Hypothesis W : wf h.
Lemma number_fun t n p q : number_of h d t n p -> number_of h d t n q -> p = q.
Proof.
  intros (x & l & Tx & Ex & Ap) (y & m & Ty & Ey & Aq). assert (x = y) by (eapply targets_fun; eassumption). subst y. assert (m = l) by congruence. subst m.
  unfold at_pos in *. rewrite (iter_wf _ _ W) in Ap, Aq. apply nth_map_some in Ap, Aq.
  eapply (proj1 (NoDup_nth_error (content h l))); [apply layer_ok_NoDup, (wf_layers h W l)|apply nth_error_Some; congruence|congruence].
Qed.
Lemma map_Some_inj (a : list nid) : forall b, map Some a = map Some b -> a = b.
Proof. induction a as [|x a IH]; intros [|y b] H; try discriminate; [reflexivity|]. simpl in H. injection H as -> H. f_equal. auto. Qed.
Lemma written_fun parts t v c c' : (forall x ps, dget parts x = Some ps -> solid ps) -> written h d parts t v c -> written h d parts t v c' -> c = c'.
Proof.
  intros Sp A B.
  destruct A as [A1|A1|A1|i A1|b A1|b A1|b A1|x A1|x A1|c txt a b ps i j A1 A2 A3 A4|n p A1 A2|A1|ns ps A1 A2 A3|a b p q A1 A2 A3 A4|a b p q A1 A2 A3 A4];
  inversion B as [B1|B1|B1|? B1|? B1|? B1|? B1|? B1|? B1|? ? ? ? ps' i' j' B1 B2 B3 B4|? p' B1 B2|B1 B2|ns' ps' B1 B2 B3 B4|? ? p' q' B1 B2 B3 B4|? ? p' q' B1 B2 B3 B4]; subst; try reflexivity; try congruence;
  try (match goal with H : In _ _ |- _ => destruct H as [H|[H|[]]]; congruence end).
  - rewrite A2 in B2. injection B2 as <-. rewrite (part_fun ps (Sp _ _ A2) i i' a A3 B3), (part_fun ps (Sp _ _ A2) j j' b A4 B4). reflexivity.
  - rewrite (number_fun t n p p' A2 B2). reflexivity.
  - match goal with H : map Some ?l = [] |- _ => destruct l; [congruence|discriminate] end.
  - destruct ns; [congruence|discriminate].
  - match goal with H : map Some ns' = map Some ns |- _ => apply map_Some_inj in H; subst ns' end.
    assert (ps = ps') as -> by (eapply (Forall2_fun (number_of h d t)); [intros x y z _; apply number_fun|eassumption|eassumption]). reflexivity.
  - rewrite (number_fun t a p p' A2 B2), (number_fun t b q q' A3 B3). reflexivity.
  - rewrite (number_fun t a p p' A2 B2), (number_fun t b q q' A3 B3). reflexivity.
Qed.
Lemma named_type t x : In (t, x) type_names -> type_string t = Ok x.
Proof. unfold type_names. cbn [In]. intros H. repeat (destruct H as [H|H]; [injection H as <- <-; reflexivity|]). destruct H. Qed.
Lemma plain_fun v o o' : plain v o -> plain v o' -> o = o'.
Proof. intros A B. destruct A; inversion B; reflexivity. Qed.
Lemma field_fun parts l ft ef ef' : (forall x ps, dget parts x = Some ps -> solid ps) -> field_written h d parts l ft ef -> field_written h d parts l ft ef' -> ef = ef'.
Proof.
  intros Sp [A1 A2 A3 A4 (ns & cs & A5 & A6 & A7)] [B1 B2 B3 B4 (ns' & cs' & B5 & B6 & B7)]. destruct ef as [n t a c], ef' as [n' t' a' c']. cbn [ef_name ef_type ef_args ef_col] in *. subst n n' c c'.
  assert (ns' = ns) as -> by (apply map_Some_inj; congruence).
  assert (cs = cs') as -> by (eapply (Forall2_fun _ ns); [|exact A7|exact B7]; intros x y z _; cbv beta; apply written_fun; assumption).
  apply named_type in A2, B2. assert (t = t') as -> by congruence. f_equal.
  destruct a as [a|], a' as [a'|]; [|exfalso|exfalso|reflexivity].
  - f_equal. eapply (Forall2_fun _ (dt_opts (snd ft))); [|apply A4; reflexivity|apply B4; reflexivity]. intros [k v] [k1 o1] [k2 o2] _ [E1 P1] [E2 P2]. cbn [fst snd] in *.
    subst k1 k2. f_equal. eapply plain_fun; eassumption.
  - destruct A3 as [_ A3]. destruct B3 as [B3 _]. specialize (A3 (B3 eq_refl)). discriminate.
  - destruct B3 as [_ B3]. destruct A3 as [A3 _]. specialize (B3 (A3 eq_refl)). discriminate.
Qed.
Lemma contents_fun e e' : contents h d e -> contents h d e' -> e = e'.
Proof.
  intros [A1 A2 A3] [B1 B2 B3]. destruct e as [p t l], e' as [p' t' l']. cbn [ed_props ed_texts ed_layers] in *. subst p p'.
  assert (t = t') as <-.
  { eapply (Forall2_fun _ (d_texts d)); [|exact A2|exact B2]. intros [k x] [k1 y] [k2 z] _ (E1 & E2 & E3 & E4) (F1 & F2 & F3 & F4). cbn [fst snd] in *. subst k1 k2. f_equal.
    apply parts_unique; [assumption|assumption|congruence|]. intros w. rewrite E4, F4. reflexivity. }
  f_equal. eapply (Forall2_fun _ (d_layers d)); [|exact A3|exact B3]. intros [k x] [n1 m1 f1] [n2 m2 f2] _ (E1 & E2 & E3) (F1 & F2 & F3). cbn [fst snd el_name el_num el_fields] in *. subst.
  f_equal. eapply (Forall2_fun _ (l_fields (h_layer h x))); [|exact E3|exact F3]. intros ft y z _. apply field_fun.
  intros c ps Hc. apply dget_In in Hc. clear - A2 Hc. induction A2 as [|u v a b (_ & _ & G & _) F IH]; [destruct Hc|]. destruct Hc as [->|Hc]; [exact G|auto].
Qed.
End Unique.
Theorem contents_unique h d e e' : doc_ok h d -> contents h d e -> contents h d e' -> e = e'.
Proof. intros D. apply contents_fun. apply (do_wf h d D). Qed.
Theorem contents_read h d ex tv h1 bs e bs' rest h0 : doc_ok h d -> msgpack_encode h d ex tv = (h1, Ok bs) -> contents h d e -> file_of e bs' -> wf h0 ->
  exists h2 d', msgpack_decode h0 (bs' ++ rest) = (h2, Ok d') /\ same_doc h d h2 d' /\ wf h2 /\ untouched h0 h2.
Proof.
  intros D E C F W. destruct (respelled h d ex tv h1 bs D E) as (e0 & E0 & _ & R). rewrite (contents_unique h d e e0 D C (encoded_contents h d ex tv h1 e0 D E0)) in F.
  destruct (msgpack_round h d ex tv h1 bs [] h0 D E W) as (h2 & d' & A & B & G & U & _). rewrite app_nil_r in A. exists h2, d'. rewrite (R bs' rest h0 F). auto.
Qed.
