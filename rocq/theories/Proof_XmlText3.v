(** The XML tree of a document whose names and texts XML can express. *)
From Verif Require Import PyBase PyBaseFacts Model_Text Model_Heap Model_Layer Model_Types Model_Msgpack Model_Document Model_Codec Model_XmlString
  Spec_Layer Spec_Types Spec_Document Spec_Codec Proof_Msgpack Proof_Text Proof_Layer4 Proof_Types Proof_Document Proof_Codec Proof_Codec2 Proof_Codec3
  Spec_XmlString Spec_Xml Spec_XmlText Proof_XmlString Proof_Xml Proof_Xml2 Proof_Xml3 Proof_XmlText Proof_XmlText2.
From Verif Require Spec_Printout.
From Coq Require Import Lia.
Local Open Scope Z_scope.

Definition ncnameb (x : pystr) : bool := match x with [] => false | c :: r => startb c && forallb nameb r end.
Lemma ncnameb_ok x : ncnameb x = true -> ncname x.
Proof.
  destruct x as [|c r]; [discriminate|]. cbn [ncnameb ncname]. intros H. apply andb_prop in H. destruct H as [H1 H2]. split; [apply inb_iff; exact H1|].
  apply Forall_forall. intros a Ha. rewrite forallb_forall in H2. apply inb_iff. apply H2. exact Ha.
Qed.
Definition plainb (x : pystr) : bool := ncnameb x && negb (str_eqb x (s "xmlns")).
Lemma plainb_ok x : plainb x = true -> attr_name x x.
Proof. intros H. apply andb_prop in H. destruct H as [H1 H2]. apply an_plain; [apply ncnameb_ok; exact H1|]. intros ->. discriminate. Qed.
Lemma nodupb_sound l : Proof_XmlText.nodupb l = true -> NoDup l.
Proof.
  induction l as [|x l IH]; [constructor|]. cbn [Proof_XmlText.nodupb]. intros H. apply andb_prop in H. destruct H as [H1 H2]. constructor; [|apply IH; exact H2].
  intros Hx. apply negb_true_iff in H1. assert (E : existsb (str_eqb x) l = true) by (apply existsb_exists; exists x; split; [exact Hx|apply str_eqb_refl]). congruence.
Qed.
(** elements with given attribute names *)
Lemma elem_lit t d kids : ncnameb t && Proof_XmlText.nodupb (dkeys d) && forallb plainb (dkeys d) = true -> Forall (Forall xml_char) (map snd d) -> Forall expressible kids -> expressible (Elem t d kids).
Proof.
  intros H Hv Hk. apply andb_prop in H. destruct H as [H H3]. apply andb_prop in H. destruct H as [H1 H2]. apply expressible_eq.
  split; [apply ncnameb_ok; exact H1|]. split; [apply nodupb_sound; exact H2|]. split; [|exact Hk].
  apply Forall_forall. intros [k v] Hin. cbn [fst snd]. split.
  - exists k. apply plainb_ok. rewrite forallb_forall in H3. apply H3. unfold dkeys. apply in_map_iff. exists (k, v). split; [reflexivity|exact Hin].
  - rewrite Forall_forall in Hv. apply Hv. apply in_map_iff. exists (k, v). split; [reflexivity|exact Hin].
Qed.
Lemma digits_legal x : Forall Spec_Printout.is_digit x -> Forall xml_char x.
Proof. apply Forall_impl. intros c Hc. unfold Spec_Printout.is_digit in Hc. unfold xml_char. lia. Qed.
Lemma int_legal i x : int_text i x -> Forall xml_char x.
Proof.
  unfold int_text. destruct (i <? 0).
  - intros (y & -> & _ & H & _). constructor; [unfold xml_char; lia|]. apply digits_legal; exact H.
  - intros (_ & H & _). apply digits_legal; exact H.
Qed.
Lemma str_int_legal i : Forall xml_char (str_int i).
Proof. exact (int_legal i _ (str_int_text i)). Qed.
Lemma concat_legal segs : Forall xml_char (List.concat segs) -> Forall (Forall xml_char) segs.
Proof. induction segs as [|x r IH]; [constructor|]. cbn [List.concat]. intros H. apply Forall_app in H. destruct H. constructor; [assumption|apply IH; assumption]. Qed.
Definition entry_legal (e : entry) : Prop :=
  match e with
  | ESimple x => Forall xml_char x
  | EArray l => Forall (Forall xml_char) l
  | EEmbed a => (Proof_XmlText.nodupb (dkeys a) && forallb plainb (dkeys a) && negb (existsb (str_eqb (s "name")) (dkeys a)) = true) /\ Forall (Forall xml_char) (map snd a)
  end.
Lemma embedded_legal es : Forall (fun fe => Forall xml_char (fst fe) /\ entry_legal (snd fe)) es -> Forall expressible (embedded_of es).
Proof.
  intros H. apply Forall_forall. intros x Hx. unfold embedded_of in Hx. apply in_flat_map in Hx. destruct Hx as ([f e] & Hin & Hx).
  rewrite Forall_forall in H. destruct (H _ Hin) as [Hf He]. cbn [fst snd] in *. destruct e as [| |a]; try contradiction. destruct Hx as [<-|[]]. destruct He as [E Ha].
  apply elem_lit; [|constructor; [exact Hf|exact Ha]|constructor].
  apply andb_prop in E. destruct E as [E E3]. apply andb_prop in E. destruct E as [E1 E2].
  change (dkeys ((s "name", f) :: a)) with (s "name" :: dkeys a). cbn [Proof_XmlText.nodupb forallb]. rewrite E1, E2, E3. reflexivity.
Qed.
Lemma arrays_legal es : Forall (fun fe => Forall xml_char (fst fe) /\ entry_legal (snd fe)) es -> Forall expressible (arrays_of es).
Proof.
  intros H. apply Forall_forall. intros x Hx. unfold arrays_of in Hx. apply in_flat_map in Hx. destruct Hx as ([f e] & Hin & Hx).
  rewrite Forall_forall in H. destruct (H _ Hin) as [Hf He]. cbn [fst snd] in *. destruct e as [|l|]; try contradiction. destruct Hx as [<-|[]]. cbn [entry_legal] in He.
  apply elem_lit; [reflexivity|constructor; [exact Hf|constructor]|]. apply Forall_map. eapply Forall_impl; [|exact He]. intros y Hy. apply elem_lit; [reflexivity|constructor; [exact Hy|constructor]|constructor].
Qed.
Lemma simple_keys es : NoDup (dkeys es) -> NoDup (dkeys (simple_of es)).
Proof.
  unfold simple_of. induction es as [|[f e] r IH]; intros N; [constructor|]. inversion N as [|? ? Nf Nr]; subst. cbn [flat_map fst snd].
  assert (E : forall k, In k (dkeys (simple_of r)) -> In k (dkeys r)).
  { intros k Hk. unfold dkeys, simple_of in Hk. apply in_map_iff in Hk. destruct Hk as ([k' v] & <- & Hk). apply in_flat_map in Hk. destruct Hk as ([g e'] & Hin & Hk). destruct e'; try contradiction.
    destruct Hk as [[= <- <-]|[]]. unfold dkeys. apply in_map_iff. exists (g, ESimple x). auto. }
  destruct e; cbn [app]; try (apply IH; exact Nr). constructor; [|apply IH; exact Nr]. intros Hf. apply Nf, E, Hf.
Qed.
Lemma dset_all (P : pystr * pystr -> Prop) d k v : Forall P d -> P (k, v) -> Forall P (dset d k v).
Proof.
  intros H Hk. induction H as [|[k0 v0] d H0 H IH]; cbn [dset]; [repeat constructor; exact Hk|]. destruct (str_eqb_spec k k0) as [->|_]; constructor; assumption.
Qed.
Lemma xid_name : attr_name xid (s "xml:id").
Proof. change xid with (s "{http://www.w3.org/XML/1998/namespace}" ++ s "id"). change (s "xml:id") with (s "xml:" ++ s "id"). apply an_xml. apply ncnameb_ok. reflexivity. Qed.
Lemma node_expressible es id : NoDup (dkeys es) -> Forall (fun fe => (ncname (fst fe) /\ fst fe <> s "xmlns") /\ entry_legal (snd fe)) es -> Forall xml_char id ->
  expressible (Elem (s "n") (dset (simple_of es) xid id) (embedded_of es ++ arrays_of es)).
Proof.
  intros N H Hid. assert (H' : Forall (fun fe => Forall xml_char (fst fe) /\ entry_legal (snd fe)) es) by (eapply Forall_impl; [|exact H]; intros fe [[A _] B]; split; [apply ncname_legal; exact A|exact B]).
  apply expressible_eq. split; [apply ncnameb_ok; reflexivity|]. split; [apply NoDup_dset, simple_keys, N|]. split.
  - apply dset_all; [|cbn [fst snd]; split; [exists (s "xml:id"); exact xid_name|exact Hid]].
    apply Forall_forall. intros [k v] Hin. unfold simple_of in Hin. apply in_flat_map in Hin. destruct Hin as ([f e] & Hin & Hk). rewrite Forall_forall in H. destruct (H _ Hin) as [[A B] C]. cbn [fst snd] in *.
    destruct e; try contradiction. destruct Hk as [[= <- <-]|[]]. split; [exists f; apply an_plain; assumption|exact C].
  - apply Forall_app. split; [apply embedded_legal; exact H'|apply arrays_legal; exact H'].
Qed.
Lemma seps_expressible verbose segs : Forall (Forall xml_char) segs -> forall i pos, Forall expressible (seps_tree verbose i pos segs).
Proof.
  induction 1 as [|x r Hx Hr IH]; intros i pos; cbn [seps_tree]; constructor; [|apply IH].
  destruct verbose; (apply elem_lit; [reflexivity| |constructor]); repeat (apply Forall_cons); try apply Forall_nil; try exact Hx; apply str_int_legal.
Qed.
Lemma text_expressible verbose k segs : Forall xml_char k -> Forall xml_char (List.concat segs) -> expressible (text_tree verbose (k, segs)).
Proof.
  intros Hk Hs. unfold text_tree. cbn [fst snd]. apply elem_lit; [reflexivity|repeat constructor; exact Hk|]. constructor.
  - apply elem_lit; [reflexivity|constructor|]. apply seps_expressible, concat_legal, Hs.
  - destruct verbose; repeat (apply Forall_cons); try apply Forall_nil. apply elem_lit; [reflexivity|constructor; [exact Hs|constructor]|constructor].
Qed.

Section Tree.
Variables (float_str : N -> pystr) (obj_str : mobj -> pystr) (val_str : value -> pystr) (h : heap) (d : doc) (ex tv : bool) (h1 : heap) (offsets : dict (list Z)).
Hypothesis D : doc_ok h d.
Hypothesis X : xml_doc_ok float_str obj_str val_str h d.
Hypothesis Ec : compile h d ex tv = (h1, Ok offsets).
Lemma numbered_legal x n y : numbered h d x n y -> Forall xml_char y.
Proof. intros (l & p & _ & _ & H). exact (int_legal _ _ H). Qed.
Lemma numbers_legal x ns ys : Forall2 (numbered h d x) ns ys -> Forall (Forall xml_char) ys.
Proof. induction 1; constructor; [eapply numbered_legal; eassumption|assumption]. Qed.
Lemma shown_legal segs t v e : shown float_str h d segs t v e -> entry_legal e.
Proof.
  destruct 1; cbn [entry_legal].
  - eapply int_legal; eassumption.
  - eapply int_legal; eassumption.
  - apply (xo_floats _ _ _ _ _ X).
  - destruct b; apply legalb_ok; reflexivity.
  - apply xml_legal. apply legalb_ok. reflexivity.
  - split; [reflexivity|]. cbn [map snd]. repeat (apply Forall_cons); try apply Forall_nil; eapply int_legal; eassumption.
  - eapply numbered_legal; eassumption.
  - eapply numbers_legal; eassumption.
  - eapply numbers_legal; eassumption.
  - split; [reflexivity|]. assert (L : Forall xml_char (l_nameof h l)) by (eapply (xo_layers _ _ _ _ _ X); apply dget_In; eassumption).
    cbn [map snd]. repeat (apply Forall_cons); try apply Forall_nil; (apply Forall_app; split; [exact L|]); (apply Forall_app; split; [apply legalb_ok; reflexivity|eapply numbered_legal; eassumption]).
Qed.
Lemma entries_legal vns k l n encs xs es : doc_node h d k l n -> mapM (field_encoder offsets) (l_fields (h_layer h l)) = Ok encs ->
  node_values float_str h1 encs n = Ok xs -> mapM (fun fx : pystr * xval => let* e := tree_entry h1 vns (snd fx) in Ok (fst fx, e)) xs = Ok es ->
  NoDup (dkeys es) /\ Forall (fun fe => (ncname (fst fe) /\ fst fe <> s "xmlns") /\ entry_legal (snd fe)) es.
Proof.
  intros Hn Hf Hx Es. destruct (compile_keeps h d ex tv h1 _ (do_wf h d D) (do_known h d D) Ec) as (W1 & S & _).
  apply mapM_Forall2 in Hf.
  assert (Ek : map fst encs = dkeys (l_fields (h_layer h l))).
  { clear - Hf. unfold dkeys. induction Hf as [|ft y a b H F IH]; [reflexivity|]. cbn [map]. rewrite IH. f_equal. apply (field_encoder_inv _ _ _ H). }
  pose proof (wf_schema h (do_wf h d D) l) as ND.
  destruct (entries_spec float_str h1 vns n encs xs es) as (A & B & C); [rewrite Ek; assumption|assumption|exact Es|].
  split; [exact A|]. apply Forall_forall. intros [f e] Hin. cbn [fst snd].
  assert (Hfe : In f (dkeys es)) by (unfold dkeys; apply in_map_iff; exists (f, e); auto). apply B in Hfe. rewrite Ek in Hfe. unfold dkeys in Hfe. apply in_map_iff in Hfe. destruct Hfe as ([f' t] & E0 & Hft). cbn [fst] in E0. subst f'.
  destruct Hn as [Hl Hn]. destruct (xo_fields _ _ _ _ _ X k l f t Hl Hft) as (X1 & X2 & _). split; [split; assumption|].
  destruct (In_nth_error _ _ Hft) as [j Hj]. destruct (Forall2_nth _ _ _ _ _ Hf Hj) as ([f' [t' offs]] & Hj' & He). destruct (field_encoder_inv _ _ _ He) as (E1 & E2 & E3). cbn [fst snd] in *. subst f' t'.
  specialize (C f (dt_name t) offs (nth_error_In _ _ Hj')). rewrite (same_fields _ _ S) in C. pose proof (dget_nodup es f e A Hin) as G.
  destruct (dget (n_fieldsof h n) f) as [v|] eqn:Ev; [|congruence].
  assert (Q : v <> VNone -> (exists e, encoded float_str h1 vns offs (dt_name t) v e /\ dget es f = Some e) -> entry_legal e).
  { intros Nv (e' & He1 & He2). assert (e' = e) by congruence. subst e'. eapply shown_legal. eapply shown_ok; try eassumption. split; eassumption. }
  destruct v; try (apply Q; [discriminate|exact C]). congruence.
Qed.
Lemma layer_expressible vns pre k l xl y : Forall xml_char pre -> In (k, l) (d_layers d) -> xml_layer float_str h1 offsets (k, l) = Ok xl -> layer_tree h1 vns pre xl = Ok y ->
  expressible y /\ expressible (schema_tree float_str val_str xl).
Proof.
  intros Hpre Hin Hx Hy. destruct (compile_keeps h d ex tv h1 _ (do_wf h d D) (do_known h d D) Ec) as (W1 & S & _). destruct (xo_layers _ _ _ _ _ X k l Hin) as [Hk _].
  unfold xml_layer in Hx. cbn [fst snd] in Hx. rewrite (same_schema _ _ S), (same_iter _ _ S) in Hx.
  destruct (mapM (field_encoder offsets) (l_fields (h_layer h l))) as [encs|] eqn:Ee; [|discriminate]. cbn [rbind] in Hx.
  match type of Hx with rbind ?m _ = _ => destruct m as [sch|] eqn:Esch; [|discriminate] end. cbn [rbind] in Hx.
  match type of Hx with rbind ?m _ = _ => destruct m as [ns|] eqn:En; [|discriminate] end. cbn [rbind] in Hx. apply Ok_inj in Hx. subst xl.
  unfold layer_tree in Hy. cbn [xl_name xl_nodes xl_schema] in *. destruct (nodes_tree h1 vns pre k 0 ns) as [q|] eqn:Eq; [|discriminate]. cbn [rbind] in Hy. apply Ok_inj in Hy. subst y.
  apply mapM_Forall2 in En, Esch. split.
  - apply elem_lit; [reflexivity|repeat constructor; exact Hk|].
    assert (F : Forall (fun xs => exists n, doc_node h d k l n /\ node_values float_str h1 encs n = Ok xs) ns).
    { assert (G : forall o, In o (layer_iter h l) -> doc_node h d k l match o with Some n => n | None => 0%nat end \/ o = None).
      { intros [n|] Ho; [left; split; [exact Hin|exact Ho]|right; reflexivity]. }
      clear - En G. induction En as [|o xs a b H F IH]; constructor.
      - destruct o as [n|]; [|discriminate]. exists n. split; [|exact H]. destruct (G _ (or_introl eq_refl)) as [K|K]; [exact K|discriminate].
      - apply IH. intros o' Ho. apply G. right. exact Ho. }
    clear En. revert q Eq. generalize 0. induction F as [|xs ns (n & Hn & Hv) F IH]; intros i q Eq; cbn [nodes_tree] in Eq; [apply Ok_inj in Eq; subst q; constructor|].
    destruct (node_tree h1 vns pre k i xs) as [x|] eqn:E; [|discriminate]. cbn [rbind] in Eq. destruct (nodes_tree h1 vns pre k (i + 1) ns) as [q'|] eqn:E'; [|discriminate]. cbn [rbind] in Eq. apply Ok_inj in Eq. subst q.
    constructor; [|eapply IH; eassumption]. unfold node_tree in E. match type of E with rbind ?m _ = _ => destruct m as [es|] eqn:Es; [|discriminate] end. cbn [rbind] in E. apply Ok_inj in E. subst x.
    destruct (entries_legal vns k l n encs xs es Hn Ee Hv Es) as [A B]. apply node_expressible; try assumption.
    repeat (apply Forall_app; split); [exact Hpre|exact Hk|apply legalb_ok; reflexivity|apply str_int_legal].
  - unfold schema_tree. cbn [xl_name xl_schema]. apply elem_lit; [reflexivity|repeat constructor; exact Hk|]. apply Forall_map.
    assert (G : forall ft, In ft (l_fields (h_layer h l)) -> In ft (l_fields (h_layer h l))) by auto. revert G. revert Esch. generalize (l_fields (h_layer h l)) at 1 2. intros fs F.
    induction F as [|[f t] z a b H F IH]; intros G; constructor; [|apply IH; intros ft Hft; apply G; right; exact Hft].
    cbn [fst snd] in H. destruct (type_string (dt_name t)) as [ts|] eqn:Et; [|discriminate]. cbn [rbind] in H. apply Ok_inj in H. subst z.
    destruct (xo_fields _ _ _ _ _ X k l f t Hin (G _ (or_introl eq_refl))) as (X1 & X2 & X3). unfold field_tree. cbn [fst snd].
    assert (Lt : Forall xml_char ts) by (destruct (dt_name t); try discriminate; apply Ok_inj in Et; subst ts; apply legalb_ok; reflexivity).
    apply elem_lit; [reflexivity|repeat (apply Forall_cons); try apply Forall_nil; [apply ncname_legal; exact X1|exact Lt]|]. apply Forall_map. apply Forall_forall. intros [a0 v0] Ha. destruct (X3 a0 v0 Ha) as [Y1 Y2].
    cbn [fst snd]. apply elem_lit; [reflexivity|repeat (apply Forall_cons); try apply Forall_nil; assumption|constructor].
Qed.
End Tree.
Section Main.
Variables (float_str : N -> pystr) (obj_str : mobj -> pystr) (val_str : value -> pystr).
Theorem tree_expressible h d verbose vns id ex tv h1 x : doc_ok h d -> xml_doc_ok float_str obj_str val_str h d -> Forall xml_char id ->
  encode_tree float_str obj_str val_str h d verbose vns id ex tv = (h1, Ok x) -> expressible x.
Proof.
  intros D X Hid H. destruct (tree_inv _ _ _ _ _ _ _ _ _ _ _ _ H) as (offsets & ts & ls & ps & lt & Ec & Ft & Fl & Hp & Fy & ->).
  assert (Hpre : Forall xml_char (match id with [] => [] | _ => id ++ s "." end)) by (destruct id; [constructor|]; apply Forall_app; split; [exact Hid|apply legalb_ok; reflexivity]).
  clear H. assert (FL : Forall expressible lt /\ Forall expressible (map (schema_tree float_str val_str) ls)).
  { clear Hp. assert (G : forall kl, In kl (d_layers d) -> In kl (d_layers d)) by auto. revert G. revert Fl. generalize (d_layers d) at 1 2. intros dl Fl. revert lt Fy.
    induction Fl as [|[k l] xl a b R F IH]; intros lt Fy G; inversion Fy as [|? y ? lt' Hy Fy']; subst; [split; constructor|].
    destruct (IH lt' Fy') as [I1 I2]; [intros kl Hkl; apply G; right; exact Hkl|].
    destruct (layer_expressible float_str obj_str val_str h d ex tv h1 offsets D X Ec vns _ k l xl y Hpre (G _ (or_introl eq_refl)) R Hy) as [E1 E2]. cbn [map]. split; constructor; assumption. }
  destruct FL as [FL FS].
  assert (FT : Forall expressible (map (text_tree verbose) ts)).
  { apply Forall_map. clear - D X Ec Ft. assert (G : forall kt, In kt (d_texts d) -> In kt (d_texts d)) by auto. revert G. revert Ft. generalize (d_texts d) at 1 2. intros dl Ft.
    induction Ft as [|[k t] [k' sg] a b (E1 & o & E2 & E3) F IH]; intros G; constructor; [|apply IH; intros kt Hkt; apply G; right; exact Hkt].
    cbn [fst snd] in *. subst k' sg. assert (Hin : In (k, t) (d_texts d)) by (apply G; left; reflexivity). destruct (xo_texts _ _ _ _ _ X k t Hin) as [X1 X2].
    apply text_expressible; [exact X1|]. pose proof (dget_nodup (d_texts d) k t (do_texts h d D) Hin) as Ek.
    pose proof (segs_join h d ex tv h1 offsets D Ec k t Ek) as J. unfold segs_of in J. rewrite Ek, E2 in J. rewrite J. exact X2. }
  assert (FP : Forall expressible ps).
  { destruct (d_props d) as [| | | | | | |pd] eqn:Ed; try discriminate. cbn [props_tree] in Hp. apply Ok_inj in Hp. subst ps. apply Forall_map. apply Forall_forall. intros [k v] Hin.
    destruct (xo_props _ _ _ _ _ X pd k v Ed Hin) as [X1 X2]. cbn [fst snd]. apply elem_lit; [reflexivity|repeat (apply Forall_cons); try apply Forall_nil; assumption|constructor]. }
  apply expressible_eq. split; [apply ncnameb_ok; reflexivity|]. split; [destruct id; repeat constructor; intros []|]. split.
  - destruct id; [constructor|]. constructor; [|constructor]. cbn [fst snd]. split; [exists (s "xml:id"); exact xid_name|exact Hid].
  - repeat (apply Forall_cons); try apply Forall_nil; (apply elem_lit; [reflexivity|constructor|assumption]).
Qed.
End Main.
