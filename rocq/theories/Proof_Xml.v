(** The XML tree shows the document. *)
From Verif Require Import PyBase PyBaseFacts Model_Text Model_Heap Model_Layer Model_Types Model_Msgpack Model_Document Model_Codec Model_XmlString
  Spec_Layer Spec_Types Spec_Document Spec_Codec Proof_Text Proof_Layer4 Proof_Document Proof_Codec Proof_Codec2 Proof_Codec3 Spec_Xml.
From Verif Require Import Proof_Msgpack.
From Verif Require Proof_Printout Spec_Printout.
Local Open Scope Z_scope.

Lemma digits_head f : forall k, (N.to_nat (N.log2 k) < f)%nat -> hd 0%N (Model_Printout.digits f k) = 48%N -> k = 0%N /\ tl (Model_Printout.digits f k) = [].
Proof.
  induction f as [|f IH]; intros k L; [lia|]. cbn [Model_Printout.digits]. destruct (N.ltb_spec k 10) as [Lk|Lk].
  - cbn [hd tl]. intros H. split; [lia|reflexivity].
  - assert (Q : (N.to_nat (N.log2 (k / 10)) < f)%nat).
    { assert (X : (N.log2 (k / 10) < N.log2 k)%N); [|lia].
      assert (Y : (k / 10 <= k / 2)%N) by (apply N.div_le_compat_l; lia).
      apply N.log2_le_mono in Y. rewrite <- N.div2_div in Y.
      assert (Z : (N.log2 k = N.succ (N.log2 (N.div2 k)))%N).
      { rewrite N.div2_spec, N.log2_shiftr. assert (1 <= N.log2 k)%N; [|lia]. change 1%N with (N.log2 2). apply N.log2_le_mono. lia. }
      lia. }
    destruct (Proof_Printout.digits_ok f (k / 10) Q) as (_ & _ & Ne). specialize (IH (k / 10)%N Q). intros H.
    destruct (Model_Printout.digits f (k / 10)) as [|c r]; [congruence|]. cbn [app hd] in H. destruct (IH H) as [Z _].
    assert (10 <= k)%N by lia. assert (X : (1 <= k / 10)%N) by (apply N.div_le_lower_bound; lia). lia.
Qed.
Lemma str_int_natural i : 0 <= i -> Spec_Printout.decimal (str_int i) = i /\ Forall Spec_Printout.is_digit (str_int i) /\ str_int i <> [] /\
  (hd 0%N (str_int i) = 48%N -> i = 0 /\ tl (str_int i) = []).
Proof.
  intros L. destruct (Proof_Printout.str_int_ok i L) as (A & B & C). split; [assumption|]. split; [assumption|]. split; [assumption|].
  unfold str_int, Model_Printout.str_int, Model_Printout.str_nat. destruct (Z.ltb_spec i 0); [lia|]. intros H'. apply digits_head in H'; [|lia]. split; [lia|apply H'].
Qed.
Lemma str_int_text i : int_text i (str_int i).
Proof.
  unfold int_text. destruct (Z.ltb_spec i 0) as [L|L]; [|apply str_int_natural; assumption].
  exists (str_int (- i)). split; [|apply str_int_natural; lia].
  unfold str_int, Model_Printout.str_int. destruct (Z.ltb_spec i 0); [|lia]. destruct (Z.ltb_spec (- i) 0); [lia|]. reflexivity.
Qed.

(** ** Segments *)
Lemma zlen_app {A} (a b : list A) : zlen (a ++ b) = zlen a + zlen b.
Proof. unfold zlen. rewrite app_length. lia. Qed.
Lemma seg_offsets_nth segs : forall pos i a, nth_error (seg_offsets pos segs) i = Some a -> (i <= length segs)%nat /\ pos + zlen (List.concat (firstn i segs)) = a.
Proof.
  induction segs as [|x r IH]; intros pos [|i] a H; cbn [seg_offsets nth_error] in H.
  - injection H as <-. cbn. split; [lia|]. unfold zlen. cbn. lia.
  - destruct i; discriminate.
  - injection H as <-. cbn. split; [lia|]. unfold zlen. cbn. lia.
  - apply IH in H. destruct H as [L E]. cbn [length firstn List.concat]. split; [lia|]. rewrite zlen_app. lia.
Qed.
Lemma concat_firstn_skipn {A} (l : list (list A)) i : List.concat l = List.concat (firstn i l) ++ List.concat (skipn i l).
Proof. rewrite <- concat_app, firstn_skipn. reflexivity. Qed.
Lemma prefix_firstn {A} (a b : list A) k : zlen a = k -> firstn (Z.to_nat k) (a ++ b) = a.
Proof. intros <-. unfold zlen. rewrite Nat2Z.id. rewrite firstn_app, Nat.sub_diag, firstn_O, app_nil_r. apply firstn_all. Qed.
Lemma prefix_skipn {A} (a b : list A) k : zlen a = k -> skipn (Z.to_nat k) (a ++ b) = b.
Proof. intros <-. unfold zlen. rewrite Nat2Z.id. rewrite skipn_app, Nat.sub_diag, skipn_all. reflexivity. Qed.
Lemma segments_span t q a b i j : Forall (fun o => 0 <= o <= zlen t) q -> a <= b ->
  offset_id (sorted_offsets t q) a = Some (Z.of_nat i) -> nth_error (sorted_offsets t q) i = Some a ->
  offset_id (sorted_offsets t q) b = Some (Z.of_nat j) -> nth_error (sorted_offsets t q) j = Some b ->
  let sg := text_compile t (sorted_offsets t q) in
  (i <= j)%nat /\ (j <= length sg)%nat /\ List.concat (firstn i sg) = firstn (Z.to_nat a) t /\
  List.concat (firstn (j - i) (skipn i sg)) = firstn (Z.to_nat (b - a)) (skipn (Z.to_nat a) t).
Proof.
  intros F Hab Ia Na Ib Nb sg. destruct (segmentation t q F) as [Sj So]. fold sg in Sj, So. unfold join_segs in Sj.
  rewrite <- So in Na, Nb. apply seg_offsets_nth in Na, Nb. destruct Na as [Li Ea]. destruct Nb as [Lj Eb].
  assert (Hij : (i <= j)%nat).
  { destruct (Nat.le_gt_cases i j) as [|G]; [assumption|]. exfalso.
    assert (X : firstn i sg = firstn j sg ++ firstn (i - j) (skipn j sg)).
    { rewrite <- (firstn_skipn j (firstn i sg)), firstn_firstn, skipn_firstn_comm. f_equal. f_equal. lia. }
    rewrite X, concat_app, zlen_app in Ea. pose proof (zlen_nonneg (List.concat (firstn (i - j) (skipn j sg)))). assert (a = b) by lia. assert (Z.of_nat i = Z.of_nat j) by congruence. lia. }
  split; [assumption|]. split; [assumption|]. assert (Ea' : zlen (List.concat (firstn i sg)) = a) by lia. split.
  - rewrite <- Sj at 1. rewrite (concat_firstn_skipn sg i). symmetry. apply prefix_firstn. assumption.
  - assert (X : skipn (Z.to_nat a) t = List.concat (skipn i sg)) by (rewrite <- Sj at 1; rewrite (concat_firstn_skipn sg i); apply prefix_skipn; assumption).
    rewrite X, (concat_firstn_skipn (skipn i sg) (j - i)). symmetry. apply prefix_firstn.
    assert (Y : firstn j sg = firstn i sg ++ firstn (j - i) (skipn i sg)).
    { rewrite <- (firstn_skipn i (firstn j sg)), firstn_firstn, skipn_firstn_comm. f_equal. f_equal. lia. }
    rewrite Y, concat_app, zlen_app in Eb. lia.
Qed.
Lemma seps_tree_nth verbose segs : forall k pos, length (seps_tree verbose k pos segs) = length segs /\
  forall i y, nth_error segs i = Some y -> nth_error (seps_tree verbose k pos segs) i = Some (Elem (s "s") ((s "v", y) ::
    if verbose then [(s "id", str_int (k + Z.of_nat i)); (s "start", str_int (pos + zlen (List.concat (firstn i segs)))); (s "stop", str_int (pos + zlen (List.concat (firstn (S i) segs))))] else []) []).
Proof.
  induction segs as [|x r IH]; intros k pos; [split; [reflexivity|intros [|i] y; discriminate]|]. cbn [seps_tree length]. destruct (IH (k + 1) (pos + zlen x)) as [L N].
  split; [rewrite L; reflexivity|]. intros [|i] y H; cbn [nth_error] in *.
  - injection H as ->. do 2 f_equal. destruct verbose; [|reflexivity]. cbn [firstn List.concat]. rewrite app_nil_r. unfold zlen at 2. cbn [length].
    replace (k + Z.of_nat 0) with k by lia. replace (pos + Z.of_nat 0) with pos by lia. reflexivity.
  - rewrite (N i y H). do 3 f_equal. destruct verbose; [|reflexivity]. change (firstn (S i) (x :: r)) with (x :: firstn i r). change (firstn (S (S i)) (x :: r)) with (x :: firstn (S i) r).
    cbn [List.concat]. rewrite !zlen_app. replace (k + 1 + Z.of_nat i) with (k + Z.of_nat (S i)) by lia. rewrite !Z.add_assoc. reflexivity.
Qed.
Lemma text_tree_ok segs verbose k t : List.concat (segs k) = t -> text_elem segs verbose k t (text_tree verbose (k, segs k)).
Proof.
  intros E. split; [assumption|]. unfold text_tree. cbn [fst snd]. exists (seps_tree verbose 0 0 (segs k)). split; [unfold join_segs; rewrite E; reflexivity|].
  destruct (seps_tree_nth verbose (segs k) 0 0) as [L N]. split; [assumption|]. intros i y H. eexists. split; [apply N; exact H|].
  destruct verbose; [|reflexivity]. do 3 eexists. split; [reflexivity|]. rewrite !Z.add_0_l. repeat split; apply str_int_text.
Qed.

(** ** Entries of a node *)
Section Entries.
Variables (float_str : N -> pystr) (h1 : heap) (vns : bool).
Lemma tree_entry_false x e : tree_entry h1 vns x = Ok e -> tree_entry h1 false x = Ok e.
Proof.
  destruct x as [x|l|offs v|v]; cbn [tree_entry]; auto. destruct v; auto. destruct (offset_str offs start); [|discriminate]. cbn [rbind].
  destruct (offset_str offs stop); [|discriminate]. cbn [rbind]. destruct vns; [discriminate|auto].
Qed.
Notation entry_of := (fun fx : pystr * xval => let* e := tree_entry h1 vns (snd fx) in Ok (fst fx, e)).
Definition encoded (offs : list Z) (t : tname) (v : value) (e : entry) : Prop :=
  exists x, xml_encode float_str h1 offs t v = Ok x /\ tree_entry h1 vns x = Ok e.
Lemma entries_spec n encs : forall xs es, NoDup (map fst encs) -> node_values float_str h1 encs n = Ok xs -> mapM entry_of xs = Ok es ->
  NoDup (dkeys es) /\ (forall f, In f (dkeys es) -> In f (map fst encs)) /\
  forall f t offs, In (f, (t, offs)) encs ->
    match dget (n_fieldsof h1 n) f with
    | None | Some VNone => dget es f = None
    | Some v => exists e, encoded offs t v e /\ dget es f = Some e
    end.
Proof.
  induction encs as [|[f [t offs]] r IH]; intros xs es N Hx He; cbn [node_values] in Hx.
  - apply Ok_inj in Hx. subst xs. apply Ok_inj in He. subst es. split; [constructor|]. split; [intros g []|]. intros g t offs [].
  - inversion N as [|? ? Nf Nr]; subst. cbn [fst] in Nf. destruct (dget (n_fieldsof h1 n) f) as [v|] eqn:Ev.
    + assert (C : v = VNone \/ v <> VNone) by (destruct v; auto; right; discriminate). destruct C as [->|C].
      * cbn [rbind] in Hx. destruct (node_values float_str h1 r n) as [b|] eqn:Eb; [|discriminate]. cbn [rbind] in Hx. apply Ok_inj in Hx. subst xs.
        destruct (IH b es Nr eq_refl He) as (A & B & D). split; [assumption|]. split; [intros g Hg; right; auto|]. intros g t' o' [X|X].
        -- injection X as <- <- <-. rewrite Ev. destruct (dget es f) eqn:E; [|reflexivity]. exfalso. apply Nf, B. apply dmem_In. unfold dmem. rewrite E. reflexivity.
        -- apply (D _ _ _ X).
      * assert (X : match v with VNone => Ok [] | _ => let* x := xml_encode float_str h1 offs t v in Ok [(f, x)] end = let* x := xml_encode float_str h1 offs t v in Ok [(f, x)]) by (destruct v; congruence).
        rewrite X in Hx. clear X. destruct (xml_encode float_str h1 offs t v) as [x|] eqn:Ex; [|discriminate]. cbn [rbind] in Hx.
        destruct (node_values float_str h1 r n) as [b|] eqn:Eb; [|discriminate]. cbn [rbind] in Hx. apply Ok_inj in Hx. subst xs. cbn [app mapM fst snd] in He.
        destruct (tree_entry h1 vns x) as [e|] eqn:Ee; [|discriminate]. cbn [rbind] in He. destruct (mapM entry_of b) as [es'|] eqn:Es; [|discriminate]. cbn [rbind] in He. apply Ok_inj in He. subst es.
        destruct (IH b es' Nr eq_refl Es) as (A & B & D). split; [constructor; [intros Hf; apply Nf, B, Hf|assumption]|]. split; [intros g [<-|Hg]; [left; reflexivity|right; auto]|].
        intros g t' o' [Y|Y].
        -- injection Y as <- <- <-. rewrite Ev. assert (Z : exists e0, encoded offs t v e0 /\ dget ((f, e) :: es') f = Some e0) by (exists e; split; [exists x; auto|cbn [dget]; rewrite str_eqb_refl; reflexivity]).
           destruct v; try exact Z. congruence.
        -- assert (Hne : str_eqb g f = false) by (destruct (str_eqb g f) eqn:Eq; [|reflexivity]; apply str_eqb_eq in Eq; subst g; exfalso; apply Nf; apply in_map_iff; exists (f, (t', o')); auto).
           specialize (D _ _ _ Y). cbn [dget]. rewrite Hne. exact D.
    + cbn [rbind] in Hx. destruct (node_values float_str h1 r n) as [b|] eqn:Eb; [|discriminate]. cbn [rbind] in Hx. apply Ok_inj in Hx. subst xs.
      destruct (IH b es Nr eq_refl He) as (A & B & D). split; [assumption|]. split; [intros g Hg; right; auto|]. intros g t' o' [X|X].
      * injection X as <- <- <-. rewrite Ev. destruct (dget es f) eqn:E; [|reflexivity]. exfalso. apply Nf, B. apply dmem_In. unfold dmem. rewrite E. reflexivity.
      * apply (D _ _ _ X).
Qed.
End Entries.

Lemma dget_none {A} (d : dict A) k : ~ In k (dkeys d) -> dget d k = None.
Proof. intros H. destruct (dget d k) eqn:E; [|reflexivity]. exfalso. apply H, dmem_In. unfold dmem. rewrite E. reflexivity. Qed.
Lemma simple_get es f : NoDup (dkeys es) -> dget (simple_of es) f = match dget es f with Some (ESimple x) => Some x | _ => None end.
Proof.
  induction es as [|[g e] r IH]; intros N; [reflexivity|]. inversion N as [|? ? Ng Nr]; subst. cbn [dget]. unfold simple_of. cbn [flat_map fst snd]. fold (simple_of r).
  destruct (str_eqb f g) eqn:E.
  - apply str_eqb_eq in E. subst g. destruct e; cbn [app dget]; rewrite ?str_eqb_refl; try reflexivity; rewrite IH by assumption; rewrite dget_none by assumption; reflexivity.
  - destruct e; cbn [app dget]; rewrite ?E; apply IH; assumption.
Qed.
Lemma named_app f a b : named f (a ++ b) = named f a ++ named f b.
Proof. unfold named. apply filter_app. Qed.
Lemma eqb_sym a b : str_eqb a b = str_eqb b a.
Proof. destruct (str_eqb a b) eqn:E; [apply str_eqb_eq in E; subst; symmetry; apply str_eqb_refl|]. destruct (str_eqb b a) eqn:E'; [|reflexivity]. apply str_eqb_eq in E'. subst. rewrite str_eqb_refl in E. discriminate. Qed.
Lemma embedded_named es f : NoDup (dkeys es) -> named f (embedded_of es) = match dget es f with Some (EEmbed a) => [Elem (s "d") ((s "name", f) :: a) []] | _ => [] end.
Proof.
  induction es as [|[g e] r IH]; intros N; [reflexivity|]. inversion N as [|? ? Ng Nr]; subst. cbn [dget]. unfold embedded_of. cbn [flat_map fst snd]. fold (embedded_of r).
  rewrite named_app, IH by assumption. assert (Q : forall a, named f [Elem (s "d") ((s "name", g) :: a) []] = if str_eqb f g then [Elem (s "d") ((s "name", g) :: a) []] else []).
  { intros a. unfold named. cbn [filter attr_of dget]. rewrite str_eqb_refl, (eqb_sym g f). destruct (str_eqb f g); reflexivity. }
  destruct (str_eqb f g) eqn:E.
  - apply str_eqb_eq in E. subst g. rewrite dget_none by assumption. rewrite app_nil_r. destruct e; try reflexivity. rewrite Q. reflexivity.
  - destruct e; cbn [app]; try reflexivity. rewrite Q. reflexivity.
Qed.
Lemma arrays_named es f : NoDup (dkeys es) -> named f (arrays_of es) = match dget es f with Some (EArray l) => [Elem (s "a") [(s "name", f)] (map (fun x => Elem (s "e") [(s "v", x)] []) l)] | _ => [] end.
Proof.
  induction es as [|[g e] r IH]; intros N; [reflexivity|]. inversion N as [|? ? Ng Nr]; subst. cbn [dget]. unfold arrays_of. cbn [flat_map fst snd]. fold (arrays_of r).
  rewrite named_app, IH by assumption. assert (Q : forall a, named f [Elem (s "a") [(s "name", g)] a] = if str_eqb f g then [Elem (s "a") [(s "name", g)] a] else []).
  { intros a. unfold named. cbn [filter attr_of dget]. rewrite str_eqb_refl, (eqb_sym g f). destruct (str_eqb f g); reflexivity. }
  destruct (str_eqb f g) eqn:E.
  - apply str_eqb_eq in E. subst g. rewrite dget_none by assumption. rewrite app_nil_r. destruct e; try reflexivity. rewrite Q. reflexivity.
  - destruct e; cbn [app]; try reflexivity. rewrite Q. reflexivity.
Qed.
Lemma kids_named es : Forall (fun k => exists g, attr_of k (s "name") = Some g) (embedded_of es ++ arrays_of es).
Proof.
  apply Forall_app. split.
  - apply Forall_forall. intros x H. unfold embedded_of in H. apply in_flat_map in H. destruct H as ([g e] & _ & H). destruct e; cbn in H; try contradiction. destruct H as [<-|[]]. exists g. reflexivity.
  - apply Forall_forall. intros x H. unfold arrays_of in H. apply in_flat_map in H. destruct H as ([g e] & _ & H). destruct e; cbn in H; try contradiction. destruct H as [<-|[]]. exists g. reflexivity.
Qed.
Lemma nodes_tree_nth h vns pre k ns : forall i q, nodes_tree h vns pre k i ns = Ok q -> length q = length ns /\
  forall p m, nth_error ns p = Some m -> exists y, nth_error q p = Some y /\ node_tree h vns pre k (i + Z.of_nat p) m = Ok y.
Proof.
  induction ns as [|n r IH]; intros i q H; cbn [nodes_tree] in H.
  - apply Ok_inj in H. subst q. split; [reflexivity|intros [|p] m; discriminate].
  - destruct (node_tree h vns pre k i n) as [x|] eqn:E; [|discriminate]. cbn [rbind] in H. destruct (nodes_tree h vns pre k (i + 1) r) as [q'|] eqn:E'; [|discriminate]. cbn [rbind] in H.
    apply Ok_inj in H. subst q. destruct (IH _ _ E') as [L N]. split; [cbn; congruence|]. intros [|p] m Hm; cbn [nth_error] in *.
    + injection Hm as <-. exists x. split; [reflexivity|]. rewrite Z.add_0_r. assumption.
    + destruct (N p m Hm) as (y & A & B). exists y. split; [assumption|]. rewrite <- B. f_equal. lia.
Qed.
