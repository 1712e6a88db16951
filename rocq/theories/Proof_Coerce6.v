(** Proofs: the round trip of documents written without validation. *)
From Verif Require Proof_Xml.
From Verif Require Import PyBase PyBaseFacts Model_Text Model_Heap Model_Layer Model_Types Model_Msgpack Model_Document Model_Query Model_Coerce Model_Codec
  Spec_Layer Spec_Types Spec_Msgpack Spec_Document Spec_Codec Spec_Query Spec_Coerce
  Proof_Msgpack Proof_Layer Proof_Layer4 Proof_Document Proof_Layout Proof_Codec Proof_Codec2 Proof_Coerce Proof_Coerce2 Proof_Coerce3 Proof_Coerce4 Proof_Coerce5.
Local Open Scope Z_scope.

Lemma Forall2_in_l' {A B} (R : A -> B -> Prop) a b : Forall2 R a b -> forall x, In x a -> exists y, In y b /\ R x y.
Proof. induction 1 as [|x' y a b H F IH]; intros x; [intros []|]. intros [->|I]; [exists y; split; [left; reflexivity|exact H]|]. destruct (IH x I) as (y' & A1 & A2). exists y'. split; [right; exact A1|exact A2]. Qed.
Section Star.
Variable F : nid -> pystr -> value -> value.
Definition stars (fs : dict value) (n : nid) : dict value := map (fun fv => (fst fv, F n (fst fv) (snd fv))) fs.
Lemma dget_stars fs n f : dget (stars fs n) f = option_map (F n f) (dget fs f).
Proof.
  unfold stars. induction fs as [|[g v] fs IH]; [reflexivity|]. cbn [map fst snd dget]. destruct (str_eqb_spec f g) as [->|]; [reflexivity|exact IH].
Qed.
Definition star (h : heap) : heap :=
  {| h_node := fun n => {| n_coll := n_coll (h_node h n); n_id := n_id (h_node h n); n_fields := stars (n_fields (h_node h n)) n |};
     h_layer := h_layer h; h_nnext := h_nnext h; h_lnext := h_lnext h |}.
Lemma star_alike h : alike h (star h).
Proof. split; reflexivity. Qed.
Definition starred (h k : heap) : Prop := alike h k /\ forall n, n_fieldsof k n = stars (n_fieldsof h n) n.
Lemma starred_star h : starred h (star h).
Proof. split; [apply star_alike|reflexivity]. Qed.
Lemma starred_prepare h k l : starred h k -> starred (layer_prepare h l) (layer_prepare k l).
Proof. intros [A B]. split; [apply alike_prepare, A|]. intros n. rewrite !fields_prepare. apply B. Qed.
Lemma starred_offsets h k f ns : starred h k -> (forall n v, In (Some n) ns -> dget (n_fieldsof h n) f = Some v -> F n f v = v) -> field_offsets k f ns = field_offsets h f ns.
Proof.
  intros [A B] H. induction ns as [|[n|] ns IH]; [reflexivity| |reflexivity]. cbn [field_offsets]. rewrite B, dget_stars, IH by (intros; eapply H; [right|]; eassumption).
  destruct (dget (n_fieldsof h n) f) as [v|] eqn:E; cbn [option_map]; [|reflexivity]. rewrite (H n v (or_introl eq_refl) E). reflexivity.
Qed.
Lemma starred_collect h k ns : starred h k -> forall fs acc, (forall f t n v, In (f, t) fs -> dt_name t = TSpan -> In (Some n) ns -> dget (n_fieldsof h n) f = Some v -> F n f v = v) ->
  collect_fields k ns fs acc = collect_fields h ns fs acc.
Proof.
  intros S. induction fs as [|[f t] fs IH]; intros acc H; [reflexivity|]. cbn [collect_fields]. assert (IH' : forall acc, collect_fields k ns fs acc = collect_fields h ns fs acc) by (intros; apply IH; intros; eapply H; [right|..]; eassumption).
  destruct (dt_name t) eqn:Et; try apply IH'. destruct (opt_name t (s "context")) as [c|]; [|reflexivity]. cbn [rbind]. destruct (dgetE acc c) as [old|]; [|reflexivity]. cbn [rbind].
  rewrite (starred_offsets h k f ns S) by (intros n v I E; exact (H f t n v (or_introl eq_refl) Et I E)).
  destruct (field_offsets h f ns) as [q|]; [|reflexivity]. apply IH'.
Qed.
Lemma starred_layers ls : forall h k check acc h1 r, wf h -> (forall x l, In (x, l) ls -> (l < h_lnext h)%nat) -> starred h k ->
  (forall x l f t n v, In (x, l) ls -> In (f, t) (l_fields (h_layer h l)) -> dt_name t = TSpan -> In (Some n) (layer_iter h l) -> dget (n_fieldsof h n) f = Some v -> F n f v = v) ->
  compile_layers h ls check acc = (h1, Ok r) -> exists k1, compile_layers k ls false acc = (k1, Ok r) /\ starred h1 k1.
Proof.
  induction ls as [|[x l] ls IH]; intros h k check acc h1 r W K S H E; cbn [compile_layers] in *.
  - injection E as <- <-. exists k. auto.
  - destruct (prepare_same h l W (K x l (or_introl eq_refl))) as (W1 & L1 & N1). pose proof (starred_prepare h k l S) as S1.
    unfold compile_layer in *. set (h' := layer_prepare h l) in *. set (k' := layer_prepare k l) in *. destruct (if check then _ else _); [|discriminate].
    destruct (collect_fields h' (layer_iter h' l) (l_fields (h_layer h' l)) acc) as [acc1|] eqn:Ec; [|discriminate].
    rewrite (alike_iter h' k' l (proj1 S1)), (al_layer _ _ (proj1 S1)). rewrite (starred_collect h' k' _ S1), Ec.
    + apply (IH h' k' check); try assumption.
      * intros y m I. rewrite N1. apply (K y m). right. exact I.
      * intros y m f t n v I. rewrite (same_iter _ _ L1), (same_fields _ _ L1), (same_schema _ _ L1). apply (H y m). right. exact I.
    + intros f t n v I Et. rewrite (same_iter _ _ L1), (same_fields _ _ L1). rewrite (same_schema _ _ L1) in I. exact (H x l f t n v (or_introl eq_refl) I Et).
Qed.
Lemma alike_refs h k d : alike h k -> check_refs k d = check_refs h d.
Proof.
  intros A. unfold check_refs. enough (E : layer_refs k (d_layers d) = layer_refs h (d_layers d)) by (rewrite E; reflexivity).
  induction (d_layers d) as [|[x l] r IH]; [reflexivity|]. cbn [layer_refs]. rewrite (al_layer _ _ A), IH. reflexivity.
Qed.
Lemma starred_compile h d ex tv h1 offsets : wf h -> known h d ->
  (forall x l f t n v, In (x, l) (d_layers d) -> In (f, t) (l_fields (h_layer h l)) -> dt_name t = TSpan -> In (Some n) (layer_iter h l) -> dget (n_fieldsof h n) f = Some v -> F n f v = v) ->
  compile h d ex tv = (h1, Ok offsets) -> exists k1, compile (star h) d true false = (k1, Ok offsets) /\ starred h1 k1.
Proof.
  intros W K H. unfold compile. rewrite (alike_refs h (star h) d (star_alike h)). destruct (check_refs h d); [|discriminate].
  destruct (compile_layers h (d_layers d) (tv && negb ex) _) as [h' [acc|]] eqn:E; intros X; [|discriminate]. injection X as <- X.
  destruct (starred_layers _ _ _ _ _ _ _ W K (starred_star h) H E) as (k1 & E1 & S1). cbn [andb]. rewrite E1. exists k1. rewrite X. auto.
Qed.
Lemma starred_column h k offs t f ns : starred h k -> forall col,
  (forall n c, In (Some n) ns -> encode_cell h offs t (field_value h n f) = Ok c -> encode_cell k offs t (field_value k n f) = Ok c) ->
  encode_column h offs t f ns = Ok col -> encode_column k offs t f ns = Ok col.
Proof.
  intros S. induction ns as [|[n|] ns IH]; intros col H E; cbn [encode_column] in *; [exact E| |discriminate].
  change (match dget (n_fieldsof k n) f with Some v => v | None => VNone end) with (field_value k n f). change (match dget (n_fieldsof h n) f with Some v => v | None => VNone end) with (field_value h n f) in E.
  destruct (encode_cell h offs t (field_value h n f)) as [c|] eqn:Ec; [|discriminate]. rewrite (H n c (or_introl eq_refl) Ec). cbn [rbind] in *.
  destruct (encode_column h offs t f ns) as [b|] eqn:Eb; [|discriminate]. rewrite (IH b); [exact E| |reflexivity]. intros m c' I. apply H. right. exact I.
Qed.
End Star.

Lemma member_coll h l n : wf h -> In (Some n) (layer_iter h l) -> n_collof h n = Some l.
Proof.
  intros W I. rewrite (iter_wf h l W) in I. apply in_map_iff in I. destruct I as (m & E & I). injection E as ->. apply (layer_ok_member h l n (wf_layers h W l)). exact I.
Qed.
Lemma value_ok_proper h d t v : plain_type (dt_name t) -> value_ok h d t v -> proper v.
Proof. unfold plain_type. simpl. intros P V. destruct V; cbn [proper]; auto. Qed.
Lemma hollow_same h h' v : looks_same h h' -> hollow h' v -> hollow h v.
Proof. intros S [| |c t a|n E|]; constructor. rewrite (same_fields _ _ S) in E. exact E. Qed.
Lemma falsy_same h h' v : looks_same h h' -> falsy h' v -> falsy h v.
Proof. intros S [|u x A B|u A]; [constructor|eapply fa_zero; eauto|apply fa_hollow; eapply hollow_same; eauto]. Qed.
Lemma truth_same h h' v : wf h -> wf h' -> looks_same h h' -> has_truth h' v -> has_truth h v.
Proof.
  intros W W' S. destruct v; cbn [has_truth]; auto. intros (n & ns & E). exists n, ns. eapply same_nodespan; [exact W'|exact W|apply looks_same_sym, S|exact E].
Qed.
Lemma converts_same h h' t v v' : wf h -> wf h' -> looks_same h h' -> converts h' t v v' -> converts h t v v'.
Proof.
  intros W W' S C. destruct C; try solve [econstructor; eauto].
  - apply cv_true; [eapply truth_same; eauto|]. intros Y. match goal with H : ~ falsy h' _ |- _ => apply H end. eapply falsy_same; [apply looks_same_sym, S|exact Y].
  - apply cv_false; [eapply truth_same; eauto|eapply falsy_same; eauto|assumption].
  - apply cv_bytes_hollow; [eapply hollow_same; eauto|assumption].
Qed.

(** ** the round trip *)
Section Round.
Variables (h h1 : heap) (d : doc) (ed : edoc) (offsets : dict (list Z)) (ex tv : bool).
Hypothesis D : doc_loose h d.
Hypothesis EC : compile h d ex tv = (h1, Ok offsets).
Hypothesis EL : Forall2 (fun kl el => encode_layer h1 offsets kl = Ok el) (d_layers d) (ed_layers ed).
Definition becomes (n : nid) (f : pystr) (v : value) : value :=
  match n_collof h n with
  | Some l => match dget (l_fields (h_layer h l)) f with Some t => coerce h1 (dt_name t) v | None => v end
  | None => v
  end.
Let k := star becomes h.
Lemma round_wf1 : wf h1 /\ looks_same h h1.
Proof. destruct (compile_keeps h d ex tv h1 _ (dl_wf _ _ D) (dl_known _ _ D) EC) as (A & B & _). auto. Qed.
Lemma becomes_in x l n f t v : In (x, l) (d_layers d) -> In (Some n) (layer_iter h l) -> dget (l_fields (h_layer h l)) f = Some t -> becomes n f v = coerce h1 (dt_name t) v.
Proof. intros I J E. unfold becomes. rewrite (member_coll h l n (dl_wf _ _ D) J), E. reflexivity. Qed.
Lemma coerce_other g t v : ~ plain_type t -> coerce g t v = v.
Proof. intros H. unfold coerce. destruct (plainb t) eqn:E; [exfalso; apply H, plainb_spec, E|reflexivity]. Qed.
Lemma plain_dec t : plain_type t \/ ~ plain_type t.
Proof. destruct (plainb t) eqn:E; [left; apply plainb_spec, E|right]. intros H. apply plainb_spec in H. congruence. Qed.
(** every cell was written *)
Lemma cell_written x l n f t : In (x, l) (d_layers d) -> In (Some n) (layer_iter h l) -> dget (l_fields (h_layer h l)) f = Some t ->
  exists offs c, encode_cell h1 offs (dt_name t) (field_value h n f) = Ok c.
Proof.
  intros I J E. destruct round_wf1 as [W1 S1]. pose proof (Forall2_in_l' _ _ _ EL) as Hl.
  destruct (Hl _ I) as (el & _ & He). destruct (encode_layer_inv _ _ _ _ _ He) as (_ & _ & Hf). pose proof (Forall2_in_l' _ _ _ Hf) as Hf'.
  rewrite (same_schema _ _ S1) in Hf'. destruct (Hf' _ (dget_In _ _ E)) as (ef & _ & Hc). destruct (encode_field_inv _ _ _ _ _ _ Hc) as (_ & _ & _ & offs & _ & Ecol).
  rewrite (same_iter _ _ S1) in Ecol. apply In_nth_error in J. destruct J as [p J]. destruct (proj1 (column_nth _ _ _ _ _ _ Ecol) p n J) as (c & Hc' & _).
  exists offs, c. unfold field_value in *. rewrite <- (same_fields _ _ S1). exact Hc'.
Qed.
Lemma cell_coerced x l n f t v : In (x, l) (d_layers d) -> In (Some n) (layer_iter h l) -> dget (l_fields (h_layer h l)) f = Some t -> dget (n_fieldsof h n) f = Some v -> plain_type (dt_name t) ->
  proper (coerce h1 (dt_name t) v) /\ of_type (dt_name t) (coerce h1 (dt_name t) v) /\ (coerce h1 (dt_name t) v = v \/ converts h (dt_name t) v (coerce h1 (dt_name t) v)) /\
  forall offs c, encode_cell h1 offs (dt_name t) v = Ok c -> encode_cell h1 offs (dt_name t) (coerce h1 (dt_name t) v) = Ok c.
Proof.
  intros I J E V P. destruct (cell_written x l n f t I J E) as (offs & c & Ec). unfold field_value in Ec. rewrite V in Ec. destruct round_wf1 as [W1 S1].
  assert (Pv : proper v). { destruct (dl_values _ _ D x l n f v t (conj I J) V E) as [H|[_ H]]; [eapply value_ok_proper; eauto|exact H]. }
  destruct (coerce_cell h1 (dt_name t) v c offs W1 P Pv Ec) as (A & B & _ & Cv). split; [exact A|]. split; [exact B|]. split.
  - destruct Cv as [Cv|Cv]; [left; exact Cv|right]. eapply converts_same; [exact (dl_wf _ _ D)|exact W1|exact S1|exact Cv].
  - intros offs' c' Ec'. exact (proj1 (proj2 (proj2 (coerce_cell h1 (dt_name t) v c' offs' W1 P Pv Ec')))).
Qed.
Lemma round_compile : exists k1, compile k d true false = (k1, Ok offsets) /\ starred becomes h1 k1.
Proof.
  eapply starred_compile; [exact (dl_wf _ _ D)|exact (dl_known _ _ D)| |exact EC]. intros x l f t n v I If Et J V.
  rewrite (becomes_in x l n f t v I J) by (apply dget_nodup; [apply (wf_schema _ (dl_wf _ _ D))|exact If]). apply coerce_other. rewrite Et. unfold plain_type. simpl. intuition discriminate.
Qed.
Lemma round_ok : doc_ok k d.
Proof.
  pose proof (star_alike becomes h) as A. fold k in A. split.
  - eapply alike_wf; [exact A|exact (dl_wf _ _ D)].
  - exact (dl_known _ _ D).
  - exact (dl_texts _ _ D).
  - exact (dl_layers _ _ D).
  - exact (dl_props _ _ D).
  - exact (dl_types _ _ D).
  - intros x l n f v t [I J] V E. rewrite (alike_iter h k l A) in J. change (dget (l_fields (h_layer h l)) f = Some t) in E. change (n_fieldsof k n) with (stars becomes (n_fieldsof h n) n) in V. rewrite dget_stars in V.
    destruct (dget (n_fieldsof h n) f) as [u|] eqn:Eu; [|discriminate]. cbn [option_map] in V. injection V as <-. rewrite (becomes_in x l n f t u I J E).
    destruct (plain_dec (dt_name t)) as [P|P].
    + destruct (cell_coerced x l n f t u I J E Eu P) as (P1 & O1 & _). apply typed_ok; assumption.
    + rewrite coerce_other by exact P. apply (alike_value_ok h k d t u A). destruct (dl_values _ _ D x l n f u t (conj I J) Eu E) as [H|[H _]]; [exact H|contradiction].
Qed.
Lemma round_layers k1 : starred becomes h1 k1 -> Forall2 (fun kl el => encode_layer k1 offsets kl = Ok el) (d_layers d) (ed_layers ed).
Proof.
  intros S. pose proof (proj1 S) as A. destruct round_wf1 as [W1 S1]. eapply Forall2_impl'; [exact EL|]. intros [x l] el I H. cbn beta in *. unfold encode_layer in *. cbn [fst snd] in *.
  rewrite (al_layer _ _ A), (alike_num h1 k1 l A). match type of H with rbind ?m _ = _ => destruct m as [fs|] eqn:Em; [|discriminate] end.
  enough (E : mapM (fun ft => encode_field k1 offsets l (fst ft) (snd ft)) (l_fields (h_layer h1 l)) = Ok fs) by (rewrite E; exact H).
  assert (Hin : forall f t, In (f, t) (l_fields (h_layer h1 l)) -> dget (l_fields (h_layer h l)) f = Some t).
  { intros f t If. rewrite (same_schema _ _ S1) in If. apply dget_nodup; [apply (wf_schema _ (dl_wf _ _ D))|exact If]. }
  clear H. revert fs Em Hin. induction (l_fields (h_layer h1 l)) as [|[f t] r IH]; intros fs Em Hin; [exact Em|]. cbn [mapM fst snd] in *.
  destruct (encode_field h1 offsets l f t) as [ef|] eqn:Ef; [|discriminate]. cbn [rbind] in Em.
  assert (Ek : encode_field k1 offsets l f t = Ok ef).
  { unfold encode_field in *. destruct (type_string (dt_name t)); [|discriminate]. cbn [rbind] in *. match type of Ef with rbind ?m _ = _ => destruct m as [args|]; [|discriminate] end. cbn [rbind] in *.
    match type of Ef with rbind ?m _ = _ => destruct m as [offs|]; [|discriminate] end. cbn [rbind] in *. destruct (encode_column h1 offs (dt_name t) f (layer_iter h1 l)) as [col|] eqn:Ecol; [|discriminate].
    rewrite (alike_iter h1 k1 l A). erewrite (starred_column becomes h1 k1 offs (dt_name t) f _ S col); [exact Ef| |exact Ecol].
    intros n c J Hc. pose proof (Hin f t (or_introl eq_refl)) as Et. rewrite (same_iter _ _ S1) in J. unfold field_value in *. rewrite (proj2 S), dget_stars. rewrite (same_fields _ _ S1) in *.
    destruct (dget (n_fieldsof h n) f) as [u|] eqn:Eu; cbn [option_map].
    - rewrite (becomes_in x l n f t u I J Et). destruct (plain_dec (dt_name t)) as [P|P].
      + destruct (cell_coerced x l n f t u I J Et Eu P) as (_ & O1 & _ & Hk). rewrite <- (Hk offs c Hc). apply typed_heap; assumption.
      + rewrite coerce_other by exact P. rewrite <- Hc. destruct (dl_values _ _ D x l n f u t (conj I J) Eu Et) as [V|[V _]]; [|contradiction]. eapply alike_cell; eauto.
    - rewrite <- Hc. destruct (dt_name t); reflexivity. }
  rewrite Ek. cbn [rbind]. destruct (mapM (fun ft => encode_field h1 offsets l (fst ft) (snd ft)) r) as [q|] eqn:Eq; [|discriminate]. rewrite (IH q eq_refl); [exact Em|]. intros g u J. apply Hin. right. exact J.
Qed.
Lemma value_alike h' d' t o o' : same_value k (same_node k d h' d') t o o' -> same_value h (same_node h d h' d') t o o'.
Proof.
  pose proof (star_alike becomes h) as A. fold k in A. assert (R : forall x n n', same_node k d h' d' x n n' -> same_node h d h' d' x n n').
  { intros x n n' (l & l' & p & E1 & E2 & P1 & P2). exists l, l', p. unfold at_pos in *. rewrite <- (alike_iter h k l A). auto. }
  intros V. destruct V; try solve [econstructor; eauto].
Qed.
Lemma round_loose h' d' : same_doc k d h' d' -> loose_doc h d h' d'.
Proof.
  intros [P T L]. split; [exact P|exact T|]. pose proof (star_alike becomes h) as A. fold k in A. eapply Forall2_impl'; [exact L|]. intros [x l] [x' l'] I (E1 & E2 & [SF SL SV SK]). cbn [fst snd] in *.
  split; [exact E1|]. split; [exact E2|]. split.
  - exact SF.
  - rewrite SL. rewrite (alike_iter h k l A). reflexivity.
  - intros p n n' f t Pn Pn' Et. assert (Pk : at_pos k l p n) by (unfold at_pos in *; rewrite (alike_iter h k l A); exact Pn). specialize (SV p n n' f t Pk Pn' Et). apply value_alike in SV.
    eexists. split; [|exact SV]. change (n_fieldsof k n) with (stars becomes (n_fieldsof h n) n). rewrite dget_stars. destruct (dget (n_fieldsof h n) f) as [u|] eqn:Eu; cbn [option_map]; [|apply kc_kept].
    assert (J : In (Some n) (layer_iter h l)) by (eapply nth_error_In; exact Pn). rewrite (becomes_in x l n f t u I J Et). destruct (plain_dec (dt_name t)) as [Pt|Pt].
    + destruct (cell_coerced x l n f t u I J Et Eu Pt) as (_ & _ & [Cv|Cv] & _); [rewrite Cv; apply kc_kept|apply kc_converted, Cv].
    + rewrite coerce_other by exact Pt. apply kc_kept.
  - exact SK.
Qed.
End Round.
Theorem loose_round h d ex tv h1 bytes rest h0 : doc_loose h d -> msgpack_encode h d ex tv = (h1, Ok bytes) -> wf h0 ->
  exists h2 d', msgpack_decode h0 (bytes ++ rest) = (h2, Ok d') /\ loose_doc h d h2 d' /\ wf h2 /\ untouched h0 h2 /\ known h2 d' /\ dkeys (d_layers d') = dkeys (d_layers d) /\ looks_same h h1.
Proof.
  intros D E W0. destruct (msgpack_encode_inv _ _ _ _ _ _ E) as (ed & Ee & L). pose proof Ee as Ee'. destruct (codec_encode_inv _ _ _ _ _ _ Ee') as (offsets & EC & ET & EL & EP).
  destruct (round_compile h h1 d offsets ex tv D EC) as (k1 & Ek & Sk). pose proof (round_layers h h1 d ed offsets ex tv D EC EL k1 Sk) as ELk.
  assert (Ck : codec_encode (star (becomes h h1) h) d true false = (k1, Ok ed)).
  { unfold codec_encode. rewrite Ek. f_equal. unfold codec_encode in Ee. rewrite EC in Ee. injection Ee as Ee. match type of Ee with rbind ?m _ = _ => destruct m as [ts|] eqn:Ets; [|discriminate] end. cbn [rbind] in *.
    destruct (mapM (encode_layer h1 offsets) (d_layers d)) as [ls|] eqn:Els; [|discriminate]. cbn [rbind] in Ee. apply Ok_inj in Ee. subst ed. cbn [ed_layers] in *.
    assert (Em : mapM (encode_layer k1 offsets) (d_layers d) = Ok ls).
    { clear - ELk. induction ELk as [|x y l l' Hx _ IH]; [reflexivity|]. cbn [mapM]. rewrite Hx. cbn [rbind]. rewrite IH. reflexivity. }
    rewrite Em. reflexivity. }
  assert (Mk : msgpack_encode (star (becomes h h1) h) d true false = (k1, Ok bytes)) by (unfold msgpack_encode; rewrite Ck, L; reflexivity).
  destruct (msgpack_round _ _ _ _ _ _ rest h0 (round_ok h h1 d ed offsets ex tv D EC EL) Mk W0) as (h2 & d' & A & B & C & U & Kn & Ky & _).
  exists h2, d'. split; [exact A|]. split; [eapply round_loose; eassumption|]. split; [exact C|]. split; [exact U|]. split; [exact Kn|]. split; [exact Ky|].
  exact (proj2 (round_wf1 h h1 d offsets ex tv D EC)).
Qed.

Lemma text_int_cell h offs t x i : In t [TI32; TI64] -> zlen x <= 4300 -> spelled x i -> encode_cell h offs t (VStr x) = Ok [MInt i].
Proof.
  intros T L Sp. destruct (int_text_spelled x i Sp) as (ds & E & Ld). replace (4300 <? zlen ds) with false in E by (symmetry; apply Z.ltb_ge; lia).
  pose proof (proj2 (ascii_spec x) (spelled_ascii x i Sp)) as A. assert (P : py_int (VStr x) = Ok i) by (cbn [py_int]; rewrite A; exact E).
  destruct T as [<-|[<-|[]]]; cbn [encode_cell]; rewrite P; reflexivity.
Qed.
Lemma numeral_digits y : Forall Spec_Printout.is_digit y -> y <> [] -> numeral y (Spec_Printout.decimal y).
Proof.
  induction y as [|c y IH] using rev_ind; [congruence|]. intros F _. apply Forall_app in F. destruct F as [Fy Fc]. inversion Fc as [|? ? Hc _]; subst. unfold Spec_Printout.is_digit in Hc.
  assert (Ec : c = (48 + (c - 48))%N) by lia. destruct y as [|c0 y].
  - rewrite Ec at 1. replace (Spec_Printout.decimal ([] ++ [c])) with (Z.of_N (c - 48)); [apply nm_one; lia|]. unfold Spec_Printout.decimal, Spec_Printout.digit_value. cbn [fold_left app]. lia.
  - replace (Spec_Printout.decimal ((c0 :: y) ++ [c])) with (10 * Spec_Printout.decimal (c0 :: y) + Z.of_N (c - 48)).
    + rewrite Ec at 1. apply nm_digit; [apply IH; [exact Fy|discriminate]|lia].
    + unfold Spec_Printout.decimal. rewrite fold_left_app. cbn [fold_left]. set (q := fold_left _ _ _). unfold Spec_Printout.digit_value. lia.
Qed.
Lemma text_spelled i x : Spec_Xml.int_text i x -> spelled x i.
Proof.
  unfold Spec_Xml.int_text. destruct (Z.ltb_spec i 0) as [L|L].
  - intros (y & -> & E & F & Ny & _). exists [], [45%N], y, [], (- i). rewrite app_nil_r. split; [reflexivity|]. split; [constructor|]. split; [constructor|]. split; [rewrite <- E; apply numeral_digits; assumption|]. right. split; [lia|reflexivity].
  - intros (E & F & Ny & _). exists [], [], x, [], i. rewrite app_nil_r. split; [reflexivity|]. split; [constructor|]. split; [constructor|]. split; [rewrite <- E; apply numeral_digits; assumption|]. left. auto.
Qed.
Lemma text_back h offs t i x : In t [TI32; TI64] -> zlen x <= 4300 -> encode_cell h offs TString (VInt i) = Ok [MStr x] -> encode_cell h offs t (VStr x) = Ok [MInt i].
Proof.
  intros T L E. cbn [encode_cell py_str rbind] in E. injection E as E. apply text_int_cell; [exact T|exact L|]. apply text_spelled. rewrite <- E. exact (Proof_Xml.str_int_text i).
Qed.
