From Verif Require Import PyBase PyBaseFacts Model_Heap Model_Layer Model_Types Model_Query Model_Nodes Model_Text Model_Printout Model_Repr Spec_Text Spec_Layer Spec_Query Spec_Nodes Spec_Printout Spec_Repr.
From Verif Require Import Proof_Text Proof_Layer Proof_Layer4 Proof_Query Proof_Nodes Proof_Nodes2 Proof_Printout3 Proof_Printout.
From Verif Require Proof_Codec Proof_Msgpack Proof_Layout.
Local Open Scope Z_scope.

Section Repr.
Variables (sr : pystr -> pystr) (vr : value -> pystr) (er : pystr) (order : list pystr -> list pystr).
Hypothesis order_ok : rearranges order.

Lemma node_repr_name h n x : node_repr h n = Ok x -> node_name h n x.
Proof.
  unfold node_repr. destruct (n_fieldsof h n) eqn:F; [intros [= <-]; now constructor 2|].
  destruct (n_collof h n) as [l|] eqn:C; [|discriminate]. intros E. apply Proof_Msgpack.Ok_inj in E. subst. constructor 1; congruence.
Qed.
Lemma node_repr_ok h n : in_layer h n -> exists x, node_repr h n = Ok x.
Proof. intros (l & E). unfold node_repr. rewrite E. destruct (n_fieldsof h n); eauto. Qed.

Lemma layer_names_ok h : forall l seen b names, layer_names h seen l = Ok (b, names) -> exists ns r,
  l = map Some ns ++ r /\ (if b then r = [] else exists r', r = None :: r') /\
  (NoDup seen -> NoDup names) /\ (forall n, In n ns -> exists c, n_collof h n = Some c) /\
  forall x, In x names <-> In x seen \/ exists n c, In n ns /\ n_collof h n = Some c /\ l_nameof h c = x.
Proof.
  induction l as [|o l IH]; intros seen b names E; simpl in E.
  - injection E as <- <-. exists [], []. split; [reflexivity|]. split; [reflexivity|]. split; [auto|]. split; [intros ? []|].
    intros x. split; [auto|intros [H|(n & c & [] & _)]; exact H].
  - destruct o as [n|].
    + destruct (n_collof h n) as [c|] eqn:C; [|discriminate]. apply IH in E. destruct E as (ns & r & -> & R & D & T & M).
      exists (n :: ns), r. split; [reflexivity|]. split; [exact R|]. split; [|split].
      * intros ND. apply D. destruct (existsb (str_eqb (l_nameof h c)) seen) eqn:X; [exact ND|].
        apply (Permutation_NoDup (Permutation_cons_append seen (l_nameof h c))). constructor; [|exact ND]. intros I.
        assert (existsb (str_eqb (l_nameof h c)) seen = true) by (apply existsb_exists; exists (l_nameof h c); split; [exact I|apply str_eqb_refl]). congruence.
      * intros m [->|I]; [eauto|apply T, I].
      * intros x. rewrite M. assert (Q : In x (if existsb (str_eqb (l_nameof h c)) seen then seen else seen ++ [l_nameof h c]) <-> In x seen \/ l_nameof h c = x).
        { destruct (existsb (str_eqb (l_nameof h c)) seen) eqn:X.
          - apply existsb_exists in X. destruct X as (y & I & Y). destruct (str_eqb_spec (l_nameof h c) y) as [<-|]; [|discriminate]. split; [auto|intros [H|<-]; assumption].
          - rewrite in_app_iff. simpl. tauto. }
        rewrite Q. split.
        -- intros [[H|H]|(m & d & I & J)]; [auto|right; exists n, c; simpl; auto|right; exists m, d; simpl; auto].
        -- intros [H|(m & d & [->|I] & J & K)]; [auto|left; right; congruence|right; exists m, d; auto].
    + injection E as <- <-. exists [], (None :: l). split; [reflexivity|]. split; [eauto|]. split; [auto|]. split; [intros ? []|].
      intros x. split; [auto|intros [H|(n & c & [] & _)]; exact H].
Qed.
Lemma layer_names_total h : forall l seen, (forall n, In (Some n) l -> in_layer h n) -> exists b names, layer_names h seen l = Ok (b, names).
Proof.
  induction l as [|[n|] l IH]; intros seen H; simpl; eauto. destruct (H n (or_introl eq_refl)) as (c & ->). apply IH. intros m I. apply H. right; exact I.
Qed.

Lemma tname_span t : tname_eqb t TSpan = true <-> t = TSpan.
Proof. destruct t; split; intros H; try reflexivity; try discriminate H. Qed.
Lemma node_i_ok h n i : node_i h n = Ok i <-> n_idof h n <> -1 /\ i = n_idof h n.
Proof. unfold node_i. destruct (Z.eqb_spec (n_idof h n) (-1)); split; [discriminate|tauto|intros [= <-]; auto|intros (_ & ->); reflexivity]. Qed.
Lemma names_order h ns names : names_of h ns names -> names_of h ns (order names).
Proof.
  intros (D & T & M). pose proof (order_ok names) as P. split; [exact (Permutation_NoDup (Permutation_sym P) D)|]. split; [exact T|].
  intros x. rewrite <- M. split; apply Permutation_in; [exact P|exact (Permutation_sym P)].
Qed.
Lemma text_value h a b x : nodespan_text h a b (s "text") = Ok x -> exists na ta p q nb tb p' q',
  dget (n_fieldsof h a) (s "text") = Some (VSpan na ta p q) /\ dget (n_fieldsof h b) (s "text") = Some (VSpan nb tb p' q') /\ x = chars ta p q'.
Proof.
  unfold nodespan_text, dgetE. destruct (dget (n_fieldsof h a) (s "text")) as [va|]; [|discriminate]. cbn [rbind].
  destruct (dget (n_fieldsof h b) (s "text")) as [vb|]; [|discriminate]. cbn [rbind]. destruct va; try discriminate. cbn [rbind span_of_value].
  destruct vb; try discriminate. cbn [rbind span_of_value]. intros [= <-]. do 8 eexists. split; [reflexivity|]. split; [reflexivity|]. unfold chars. rewrite doc_slice_py. reflexivity.
Qed.
Lemma text_ok h a b na ta p q nb tb p' q' : dget (n_fieldsof h a) (s "text") = Some (VSpan na ta p q) -> dget (n_fieldsof h b) (s "text") = Some (VSpan nb tb p' q') ->
  nodespan_text h a b (s "text") = Ok (chars ta p q').
Proof. intros A B. unfold nodespan_text, dgetE. rewrite A, B. cbn [rbind span_of_value]. unfold chars. rewrite doc_slice_py. reflexivity. Qed.

Lemma span_shown h a b x : span_repr sr h a b = Ok x -> shown sr vr er h (VNodeSpan a b) (CStr x).
Proof.
  unfold span_repr. destruct (n_collof h a) as [l|] eqn:C; [|discriminate]. destruct (node_i h a) as [ia|] eqn:A; [|discriminate].
  destruct (node_i h b) as [ib|] eqn:B; [|discriminate]. cbn [rbind]. apply node_i_ok in A, B. destruct A as (A & ->), B as (B & ->).
  assert (N : ~ has_text h l -> Ok (s "NodeSpan[" ++ l_nameof h l ++ s ": " ++ str_int (n_idof h a) ++ s " to incl. " ++ str_int (n_idof h b) ++ s "]") = Ok x ->
              shown sr vr er h (VNodeSpan a b) (CStr x)).
  { intros H E. apply Proof_Msgpack.Ok_inj in E. rewrite <- E. constructor; assumption. }
  destruct (dget (l_fields (h_layer h l)) (s "text")) as [d|] eqn:D; [|apply N; intros (e & E & _); congruence].
  destruct (tname_eqb (dt_name d) TSpan) eqn:T; [|apply N; intros (e & E & F); rewrite D in E; injection E as <-; apply tname_span in F; congruence].
  apply tname_span in T. destruct (nodespan_text h a b (s "text")) as [y|] eqn:X; [|discriminate]. cbn [rbind]. intros E. apply Proof_Msgpack.Ok_inj in E.
  apply text_value in X. destruct X as (na & ta & p & q & nb & tb & p' & q' & X & Y & ->). rewrite <- E. rewrite <- !app_assoc. eapply (shown_text sr vr er h a b l); try eassumption. exists d; auto.
Qed.
Lemma repr_shown h v c : get_representation sr vr er order h v = Ok c -> shown sr vr er h v c.
Proof.
  assert (PL : forall v, (forall n, v <> VNode n) -> (forall a b, v <> VNodeSpan a b) -> (forall l, v <> VNodeList l) -> v <> VNone ->
    Ok (CStr (vr v)) = Ok c -> shown sr vr er h v c) by (intros w A B C D [= <-]; constructor; assumption).
  destruct v as [| | | | | | |n|a b|l| |]; simpl; try (apply PL; intros; discriminate).
  - intros [= <-]. constructor.
  - destruct (node_repr h n) as [x|] eqn:E; [|discriminate]. cbn [rbind]. intros [= <-]. constructor. apply node_repr_name, E.
  - destruct (span_repr sr h a b) as [x|] eqn:E; [|discriminate]. cbn [rbind]. intros [= <-]. apply span_shown, E.
  - destruct l as [|x [|y l]].
    + intros [= <-]. constructor.
    + destruct x as [n|]; cbn [elem_text].
      * destruct (node_repr h n) as [z|] eqn:E; [|discriminate]. cbn [rbind]. intros X. apply Proof_Msgpack.Ok_inj in X. subst c. apply (shown_one sr vr er h n z), node_repr_name, E.
      * cbn [rbind]. intros X. apply Proof_Msgpack.Ok_inj in X. subst c. apply shown_other.
    + destruct (layer_names h [] (x :: y :: l)) as [[b names]|] eqn:E; [|discriminate]. cbn [rbind]. intros X. apply Proof_Msgpack.Ok_inj in X. subst c.
      apply layer_names_ok in E. destruct E as (ns & r & E & R & D & T & M).
      assert (NO : names_of h ns names).
      { split; [apply D; constructor|]. split; [exact T|]. intros z. rewrite M. split; [intros [[]|H]; exact H|auto]. }
      destruct b.
      * subst r. rewrite app_nil_r in E. rewrite E. replace (zlen (map Some ns)) with (zlen ns) by (unfold zlen; rewrite map_length; reflexivity).
        apply shown_nodes; [|apply names_order, NO]. assert (L := f_equal (@length _) E). rewrite map_length in L. simpl in L. lia.
      * destruct R as (r' & ->). rewrite E. apply shown_mixed; [|exact NO]. assert (L := f_equal (@length _) E). rewrite app_length, map_length in L. simpl in L. lia.
Qed.
Lemma repr_total h v : showable h v -> exists c, get_representation sr vr er order h v = Ok c.
Proof.
  intros H. destruct H as [v A B C|n I|l I|a b l C IA IB N|a b l na ta p q nb tb p' q' C IA IB GA GB].
  - destruct v; simpl; eauto; exfalso; [eapply A|eapply B|eapply C]; reflexivity.
  - simpl. destruct (node_repr_ok h n I) as (x & ->). cbn [rbind]. eauto.
  - simpl. destruct l as [|x [|y l]]; [eauto| |].
    + destruct x as [n|]; cbn [elem_text]; [|cbn [rbind]; eauto]. destruct (node_repr_ok h n (I n (or_introl eq_refl))) as (z & ->). cbn [rbind]. eauto.
    + destruct (layer_names_total h (x :: y :: l) [] I) as (b & names & ->). cbn [rbind]. eauto.
  - simpl. unfold span_repr. rewrite C. assert (X : node_i h a = Ok (n_idof h a)) by (apply node_i_ok; auto). assert (Y : node_i h b = Ok (n_idof h b)) by (apply node_i_ok; auto).
    rewrite X, Y. cbn [rbind]. destruct (dget (l_fields (h_layer h l)) (s "text")) as [d|] eqn:D; [|cbn [rbind]; eauto].
    destruct (tname_eqb (dt_name d) TSpan) eqn:T; [|cbn [rbind]; eauto]. apply tname_span in T. exfalso. apply N. exists d. auto.
  - simpl. unfold span_repr. rewrite C. assert (X : node_i h a = Ok (n_idof h a)) by (apply node_i_ok; auto). assert (Y : node_i h b = Ok (n_idof h b)) by (apply node_i_ok; auto).
    rewrite X, Y, (text_ok _ _ _ _ _ _ _ _ _ _ _ GA GB). cbn [rbind]. destruct (dget (l_fields (h_layer h l)) (s "text")) as [d|]; [|cbn [rbind]; eauto].
    destruct (tname_eqb (dt_name d) TSpan); cbn [rbind]; eauto.
Qed.

(** ** Titles *)
Lemma format_plain x : no_percent x -> forall y k, format_int (x ++ y) k = let* z := format_int y k in Ok (x ++ z).
Proof.
  induction x as [|c x IH]; intros N y k; simpl; [destruct (format_int y k); reflexivity|].
  destruct (N.eqb_spec c 37) as [->|D]; [exfalso; apply N; left; reflexivity|]. rewrite IH by (intros I; apply N; right; exact I).
  destruct (format_int y k); reflexivity.
Qed.
Lemma format_caption h c k : plain_name h c ->
  format_int (match c with CLayer l => layer_title (l_nameof h l) | CQuery _ _ _ => query_title | _ => default_title end) (Some k) = Ok (caption_of h c k).
Proof.
  destruct c as [l| | |]; intros P; try reflexivity. unfold layer_title, caption_of, plain_name in *.
  rewrite (format_plain (s "Layer '")) by (vm_compute; intros H; repeat (destruct H as [H|H]; [discriminate|]); exact H). rewrite (format_plain _ P). reflexivity.
Qed.

(** ** Sorting field names *)
Lemma str_leb_total a b : str_leb a b = true \/ str_leb b a = true.
Proof. unfold str_leb. rewrite (str_cmp_anti a b). destruct (str_cmp a b); simpl; auto. Qed.
Lemma str_leb_lt a b : str_leb a b = true <-> str_lt a b \/ a = b.
Proof.
  unfold str_leb. split.
  - destruct (str_cmp a b) eqn:E; [right; apply str_cmp_eq, E|left; apply str_cmp_lt, E|discriminate].
  - intros [H| ->]; [rewrite (str_lt_cmp _ _ H)|rewrite str_cmp_refl]; reflexivity.
Qed.
Lemma str_cmp_trans a : forall b c, str_cmp a b = Lt -> str_cmp b c = Lt -> str_cmp a c = Lt.
Proof.
  induction a as [|x a IH]; intros [|y b] [|z c]; simpl; try discriminate; auto. intros H J.
  destruct (N.compare_spec x y) as [->|L|L]; try discriminate.
  - destruct (N.compare y z); try discriminate; auto. eapply IH; eassumption.
  - destruct (N.compare_spec y z) as [->|L'|L']; try discriminate.
    + apply N.compare_lt_iff in L. rewrite L. reflexivity.
    + assert (X : (x ?= z)%N = Lt) by (apply N.compare_lt_iff; eapply N.lt_trans; eassumption). rewrite X. reflexivity.
Qed.
Lemma str_leb_trans a b c : str_leb a b = true -> str_leb b c = true -> str_leb a c = true.
Proof.
  unfold str_leb. destruct (str_cmp a b) eqn:E; [apply str_cmp_eq in E; subst; auto| |discriminate]. destruct (str_cmp b c) eqn:F; [apply str_cmp_eq in F; subst; rewrite E; auto| |discriminate].
  rewrite (str_cmp_trans _ _ _ E F). auto.
Qed.
Lemma sorted_fields l : in_sorted_order (ssort (fun x => x) str_leb l).
Proof.
  unfold in_sorted_order. pose proof (ssort_sorted (fun x : pystr => x) str_leb str_leb_total str_leb_trans l) as H.
  induction H as [|a r H IH F]; constructor; [exact IH|]. eapply Forall_impl; [|exact F]. intros b. apply str_leb_lt.
Qed.

(** ** Tables *)
Lemma node_cells_ok h fields n cs : node_cells sr vr er order h fields (Some n) = Ok cs -> cells_of sr vr er h fields n cs.
Proof.
  simpl. intros E. apply Proof_Codec.mapM_Forall2 in E. unfold cells_of. eapply Proof_Codec.Forall2_impl'; [exact E|]. intros f c _ H. apply repr_shown. exact H.
Qed.
Lemma node_rows_ok h fields offset : forall ns i body, node_rows sr vr er order h fields offset i (map Some ns) = Ok body ->
  Forall2 (fun n r => cells_of sr vr er h fields n (r_elems r)) ns body /\
  forall j r, nth_error body j = Some r -> r_index r = match offset with Some k => Some (str_int (i + Z.of_nat j + k)) | None => None end.
Proof.
  induction ns as [|n ns IH]; intros i body E.
  - injection E as <-. split; [constructor|intros [|j] r; discriminate].
  - cbn [map node_rows] in E. destruct (node_cells sr vr er order h fields (Some n)) as [cs|] eqn:C; [|discriminate]. cbn [rbind] in E.
    destruct (node_rows sr vr er order h fields offset (i + 1) (map Some ns)) as [rest|] eqn:R; [|discriminate]. cbn [rbind] in E. apply Proof_Msgpack.Ok_inj in E. subst body.
    destruct (IH _ _ R) as (F & G). split; [constructor; [apply node_cells_ok, C|exact F]|].
    intros [|j] r; simpl.
    + intros [= <-]. simpl. destruct offset; [f_equal; f_equal; lia|reflexivity].
    + intros X. rewrite (G j r X). destruct offset; [f_equal; f_equal; lia|reflexivity].
Qed.
Lemma rows_total h fields offset : forall ns i, (forall n f, In n ns -> In f fields -> showable h (fget h n f)) ->
  exists body, node_rows sr vr er order h fields offset i (map Some ns) = Ok body.
Proof.
  induction ns as [|n ns IH]; intros i H; simpl; [eauto|].
  destruct (mapM_total (fun k => get_representation sr vr er order h (fget h n k)) fields) as (cs & ->).
  { intros f I. apply repr_total, H; [left; reflexivity|exact I]. }
  cbn [rbind]. destruct (IH (i + 1)) as (rest & ->); [intros m f I; apply H; right; exact I|]. cbn [rbind]. eauto.
Qed.
Lemma coll_table_ok h c title offset ns t : nodes_of h c ns -> coll_table sr vr er order h c title offset = Ok t ->
  exists fields hd len, Permutation fields (dkeys (coll_fields h c)) /\ in_sorted_order fields /\ t_header t = Some hd /\ r_elems hd = map CStr fields /\
    t_hide_index t = true /\ t_hide_header t = false /\
    Forall2 (fun n r => cells_of sr vr er h fields n (r_elems r)) ns (t_body t) /\
    (forall j r, nth_error (t_body t) j = Some r -> r_index r = match offset with Some k => Some (str_int (k + Z.of_nat j)) | None => None end) /\
    coll_len h c = Ok len /\ exists x, t_caption t = Some x /\ format_int title (Some len) = Ok x.
Proof.
  unfold nodes_of, coll_table. intros N. rewrite N. destruct (coll_len h c) as [len|]; [|discriminate]. cbn [rbind].
  destruct (format_int title (Some len)) as [x|] eqn:X; [|discriminate]. cbn [rbind].
  destruct (node_rows sr vr er order h _ offset 0 (map Some ns)) as [body|] eqn:B; [|discriminate]. cbn [rbind]. intros E. apply Proof_Msgpack.Ok_inj in E. subst t.
  apply node_rows_ok in B. destruct B as (F & G). exists (ssort (fun x => x) str_leb (dkeys (coll_fields h c))). eexists. exists len.
  split; [apply Permutation_sym, ssort_perm|]. split; [apply sorted_fields|]. split; [reflexivity|]. split; [reflexivity|]. split; [reflexivity|]. split; [reflexivity|].
  split; [exact F|]. split; [|split; [reflexivity|exists x; auto]]. intros j r J. rewrite (G j r J). destruct offset; [f_equal; f_equal; lia|reflexivity].
Qed.
Lemma str_table_ok h c ns t : nodes_of h c ns -> coll_str_table sr vr er order h c = Ok t ->
  exists fields hd, Permutation fields (dkeys (coll_fields h c)) /\ in_sorted_order fields /\ t_header t = Some hd /\ r_elems hd = map CStr fields /\
    Forall2 (fun n r => cells_of sr vr er h fields n (r_elems r)) ns (t_body t) /\ (forall r, In r (t_body t) -> r_index r = None) /\
    (wf h -> plain_name h c -> t_caption t = Some (caption_of h c (zlen ns))).
Proof.
  intros N E. unfold coll_str_table in E. destruct (coll_table_ok _ _ _ _ _ _ N E) as (fields & hd & len & P & S & H & HE & _ & _ & F & G & L & x & X & Y).
  exists fields, hd. repeat (split; [assumption|]). split.
  - intros r I. apply In_nth_error in I. destruct I as (j & J). exact (G j r J).
  - intros W PN. rewrite (format_caption h c len PN) in Y. apply Proof_Msgpack.Ok_inj in Y. destruct (coll_length h c ns W N) as (L' & _). rewrite X. congruence.
Qed.
Lemma coll_table_total h c title offset ns x : wf h -> nodes_of h c ns -> format_int title (Some (zlen ns)) = Ok x ->
  (forall n f v, In n ns -> dget (n_fieldsof h n) f = Some v -> In f (dkeys (coll_fields h c)) -> showable h v) ->
  exists t, coll_table sr vr er order h c title offset = Ok t.
Proof.
  intros W N X H. unfold coll_table. destruct (coll_length h c ns W N) as (-> & _). cbn [rbind]. rewrite X. cbn [rbind]. unfold nodes_of in N. rewrite N. cbn [rbind].
  destruct (rows_total h (ssort (fun x => x) str_leb (dkeys (coll_fields h c))) offset ns 0) as (body & ->); [|cbn [rbind]; eauto].
  intros n f I J. unfold fget. destruct (dget (n_fieldsof h n) f) as [v|] eqn:D; [|constructor; discriminate].
  apply (H n f v I D). eapply Permutation_in; [apply Permutation_sym, (ssort_perm (fun x : pystr => x) str_leb)|exact J].
Qed.
Lemma Forall2_nth_r {A B} (P : A -> B -> Prop) l m : Forall2 P l m -> forall y, In y m -> exists x, In x l /\ P x y.
Proof. induction 1; intros z []; [subst; exists x; simpl; auto|]. destruct (IHForall2 z H1) as (w & I & J). exists w. simpl; auto. Qed.
Lemma coll_str_total o h c ns : reached whole o -> (o_width o = None \/ o_display o <> None) -> wf h -> nodes_of h c ns -> plain_name h c ->
  (forall n f v, In n ns -> dget (n_fieldsof h n) f = Some v -> In f (dkeys (coll_fields h c)) -> showable h v) ->
  exists x, coll_str sr vr er order o h c = Ok x.
Proof.
  intros R O W N P H. unfold coll_str, coll_str_table.
  destruct (coll_table_total h c _ None ns _ W N (format_caption h c (zlen ns) P) H) as (t & E). rewrite E. cbn [rbind].
  destruct (coll_table_ok _ _ _ _ _ _ N E) as (fields & hd & len & _ & _ & Hd & HE & _ & _ & F & _).
  destruct (text_total o t hd (reached_limits o R) O Hd) as (l & X).
  - intros r I. destruct (Forall2_nth_r _ _ _ F r I) as (n & _ & C). rewrite HE, map_length. unfold cells_of in C. apply Proof_Layout.Forall2_length in C. lia.
  - unfold render_text. rewrite X. cbn [rbind]. eauto.
Qed.

(** ** HTML of a node span *)
Lemma html_span_ok h a b ns t : nodes_of h (CSpan a b) ns -> coll_html_table sr vr er order h (CSpan a b) = Ok t ->
  (forall j r, nth_error (t_body t) j = Some r -> r_index r = Some (str_int (n_idof h a + Z.of_nat j))).
Proof.
  intros N. unfold coll_html_table. destruct (node_i h a) as [i|] eqn:I; [|discriminate]. cbn [rbind]. intros E.
  destruct (coll_table_ok _ _ _ _ _ _ N E) as (fields & hd & len & _ & _ & _ & _ & _ & _ & _ & G & _). apply node_i_ok in I. destruct I as (_ & ->). exact G.
Qed.

(** ** Nodes *)
Lemma node_table_ok h n t : node_table sr vr er order h n = Ok t ->
  Forall2 (fun kv r => exists c, r_elems r = [CStr (fst kv); c] /\ shown sr vr er h (snd kv) c) (n_fieldsof h n) (t_body t) /\
  (n_fieldsof h n <> [] -> exists l, n_collof h n = Some l /\ t_caption t = Some (s "Node " ++ l_nameof h l ++ s "#" ++ str_int (n_idof h n))) /\
  (exists r, t_header t = Some r /\ r_elems r = [CStr (s "field"); CStr (s "value")]) /\ t_hide_header t = false /\ t_hide_index t = true.
Proof.
  unfold node_table. intros E.
  destruct (match n_fieldsof h n with [] => Ok [] | _ => _ end) as [x|] eqn:X in E; [|discriminate]. cbn [rbind] in E.
  destruct (mapM _ (n_fieldsof h n)) as [body|] eqn:B in E; [|discriminate]. cbn [rbind] in E. apply Proof_Msgpack.Ok_inj in E. subst t. cbn [t_body t_caption t_header t_hide_header t_hide_index].
  split; [|split; [|split; [eexists; split; reflexivity|split; reflexivity]]].
  - apply Proof_Codec.mapM_Forall2 in B. eapply Proof_Codec.Forall2_impl'; [exact B|]. intros kv r _ H. cbv beta in H.
    destruct (get_representation sr vr er order h (snd kv)) as [c|] eqn:G; [|discriminate]. cbn [rbind] in H. apply Proof_Msgpack.Ok_inj in H. subst r. exists c. split; [reflexivity|apply repr_shown, G].
  - intros NE. destruct (n_fieldsof h n); [contradiction|]. destruct (n_collof h n) as [l|]; [|discriminate]. exists l. split; [reflexivity|]. apply Proof_Msgpack.Ok_inj in X. congruence.
Qed.
Lemma node_str_total o h n : reached whole o -> (o_width o = None \/ o_display o <> None) -> (n_fieldsof h n <> [] -> in_layer h n) ->
  (forall f v, In (f, v) (n_fieldsof h n) -> showable h v) -> exists x, node_str sr vr er order o h n = Ok x.
Proof.
  intros R O L H. unfold node_str. assert (T : exists t, node_table sr vr er order h n = Ok t).
  { unfold node_table. destruct (mapM_total (fun kv => let* c := get_representation sr vr er order h (snd kv) in Ok (mkRow None [CStr (fst kv); c])) (n_fieldsof h n)) as (body & B).
    - intros (f & v) I. destruct (repr_total h v (H f v I)) as (c & E). simpl. rewrite E. cbn [rbind]. eauto.
    - rewrite B. destruct (n_fieldsof h n) as [|kv r]; [cbn [rbind]; eauto|]. destruct L as (l & ->); [discriminate|]. cbn [rbind]. eauto. }
  destruct T as (t & E). rewrite E. cbn [rbind]. assert (Hd : t_header t = Some (mkRow (Some (s "#")) [CStr (s "field"); CStr (s "value")])).
  { clear -E. unfold node_table in E. destruct (match n_fieldsof h n with [] => Ok [] | _ => _ end) in E; [|discriminate]. cbn [rbind] in E.
    destruct (mapM _ (n_fieldsof h n)) in E; [|discriminate]. cbn [rbind] in E. apply Proof_Msgpack.Ok_inj in E. subst t. reflexivity. }
  destruct (node_table_ok _ _ _ E) as (F & _). destruct (text_total o t _ (reached_limits o R) O Hd) as (l & X).
  - intros r I. destruct (Forall2_nth_r _ _ _ F r I) as (kv & _ & c & -> & _). apply le_n.
  - unfold render_text. rewrite X. cbn [rbind]. eauto.
Qed.
Lemma node_str_dangling o h n : n_fieldsof h n <> [] -> n_collof h n = None -> node_str sr vr er order o h n = Err AttributeError.
Proof. intros NE C. unfold node_str, node_table. rewrite C. destruct (n_fieldsof h n); [contradiction|reflexivity]. Qed.

(** ** Documents *)
Lemma document_total o h texts layers : reached whole o -> (o_width o = None \/ o_display o <> None) -> exists x, document_str sr o h texts layers = Ok x.
Proof.
  intros R O. unfold document_str.
  destruct (text_total o (texts_table sr texts) _ (reached_limits o R) O eq_refl) as (l & X).
  { intros r I. apply in_map_iff in I. destruct I as (kv & <- & _). apply le_n. }
  destruct (text_total o (layers_table h layers) _ (reached_limits o R) O eq_refl) as (l' & X').
  { intros r I. apply in_map_iff in I. destruct I as (kv & <- & _). apply le_n. }
  unfold render_text. rewrite X, X'. cbn [rbind]. eauto.
Qed.
Lemma document_shows o h texts layers x : wf h -> document_str sr o h texts layers = Ok x ->
  exists a b ta tb, x = s "== Document ==" ++ [10%N] ++ a ++ [10%N] ++ b /\ render_text o ta = Ok a /\ render_text o tb = Ok b /\
    t_caption ta = Some (s "Texts") /\ t_caption tb = Some (s "Layers") /\
    t_hide_header ta = true /\ t_hide_index ta = true /\ t_hide_header tb = true /\ t_hide_index tb = true /\
    Forall2 (fun kt r => r_elems r = [CStr (fst kt); CStr (sr (snd kt))]) texts (t_body ta) /\
    Forall2 (fun kl r => r_elems r = [CStr (fst kl); CStr (s "N=" ++ str_int (zlen (content h (snd kl))))]) layers (t_body tb).
Proof.
  intros W. unfold document_str. destruct (render_text o (texts_table sr texts)) as [a|] eqn:A; [|discriminate]. cbn [rbind].
  destruct (render_text o (layers_table h layers)) as [b|] eqn:B; [|discriminate]. cbn [rbind]. intros H. injection H as <-.
  exists a, b, (texts_table sr texts), (layers_table h layers). split; [reflexivity|]. split; [exact A|]. split; [exact B|]. do 6 (split; [reflexivity|]). split.
  - cbn [texts_table t_body]. clear. induction texts; constructor; [reflexivity|assumption].
  - cbn [layers_table t_body]. clear - W. induction layers as [|[k l] layers IH]; constructor; [|exact IH].
    cbn [fst snd r_elems]. unfold layer_len. rewrite (ok_num h l (wf_layers h W l)). reflexivity.
Qed.
End Repr.
