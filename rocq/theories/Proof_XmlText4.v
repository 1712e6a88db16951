(** When ElementTree.write raises, and texts of documents. *)
From Verif Require Import PyBase PyBaseFacts Model_Text Model_Heap Model_Layer Model_Types Model_Msgpack Model_Document Model_Codec Model_Xml
  Spec_Layer Spec_Document Spec_Codec Proof_Msgpack Proof_Codec Spec_XmlString Spec_Xml Spec_XmlText Proof_Xml Proof_Xml2 Proof_Xml3 Proof_XmlText Proof_XmlText2 Proof_XmlText3.
From Verif Require Import Spec_Types Proof_Document.
Local Open Scope N_scope.

Lemma rsplit_iff x : rsplit_brace x = None <-> ~ In 125 x.
Proof.
  induction x as [|c x IH]; cbn [rsplit_brace In]; [tauto|]. destruct (rsplit_brace x) as [[a b]|].
  - split; [discriminate|]. intros H. exfalso. assert (X : ~ In 125 x -> False) by (intros Y; apply IH in Y; discriminate). tauto.
  - assert (Y : ~ In 125 x) by (apply IH; reflexivity). destruct (N.eqb_spec c 125) as [->|Hc]; [split; [discriminate|tauto]|]. split; [tauto|reflexivity].
Qed.
Lemma add_good st q : ~ half_named q -> exists st', add_qname st q = Ok st' /\ (forall q', q' = q \/ dmem (fst st) q' = true -> dmem (fst st') q' = true).
Proof.
  intros H. destruct st as [qn sp]. assert (D : forall n q', q' = q \/ dmem qn q' = true -> dmem (dset qn q n) q' = true).
  { intros n q' Hq. unfold dmem. rewrite dget_dset. destruct (str_eqb_spec q' q) as [->|Hn]; [reflexivity|]. destruct Hq as [Hq|Hq]; [contradiction|exact Hq]. }
  destruct q as [|c r]; cbn [add_qname]; [eexists; split; [reflexivity|apply D]|]. destruct (N.eqb_spec c 123) as [->|Hc]; [|eexists; split; [reflexivity|apply D]].
  destruct (rsplit_brace r) as [[u t]|] eqn:E.
  - destruct (dget sp u) as [p|]; cbv zeta; (eexists; split; [reflexivity|apply D]).
  - exfalso. apply H. exists r. split; [reflexivity|]. apply rsplit_iff. exact E.
Qed.
Lemma add_bad st q : half_named q -> add_qname st q = Err ValueError.
Proof. intros (r & -> & Hr). apply rsplit_iff in Hr. destruct st as [qn sp]. cbn [add_qname N.eqb Pos.eqb]. rewrite Hr. reflexivity. Qed.
Lemma see_good l : forall st, Forall (fun q => ~ half_named q) l ->
  exists st', see_qnames st l = Ok st' /\ forall q, In q l \/ dmem (fst st) q = true -> dmem (fst st') q = true.
Proof.
  induction l as [|q l IH]; intros st Hl; [exists st; split; [reflexivity|intros q [[]|H]; exact H]|]. inversion Hl as [|? ? Hq Hl']. subst.
  cbn [see_qnames]. unfold see_qname. destruct (dmem (fst st) q) eqn:E; cbn [rbind].
  - destruct (IH st Hl') as (st' & E1 & E2). exists st'. split; [exact E1|]. intros q' [[<-|H]|H]; apply E2; auto.
  - destruct (add_good st q Hq) as (st1 & A1 & A2). rewrite A1. cbn [rbind]. destruct (IH st1 Hl') as (st' & E1 & E2). exists st'. split; [exact E1|].
    intros q' [[<-|H]|H]; apply E2; auto.
Qed.
Lemma half_dec q : half_named q \/ ~ half_named q.
Proof.
  destruct q as [|c r]; [right; intros (r & H & _); discriminate|]. destruct (N.eq_dec c 123) as [->|Hc]; [|right; intros (r' & H & _); congruence].
  destruct (in_dec N.eq_dec 125 r) as [Hi|Hi]; [right; intros (r' & H & H'); assert (r = r') by congruence; subst; contradiction|left; exists r; split; [reflexivity|exact Hi]].
Qed.
Lemma see_bad l : forall st, (forall q, dmem (fst st) q = true -> ~ half_named q) -> Exists half_named l -> see_qnames st l = Err ValueError.
Proof.
  induction l as [|q l IH]; intros st Hs Hl; [inversion Hl|]. cbn [see_qnames]. unfold see_qname. destruct (half_dec q) as [Hq|Hq].
  - destruct (dmem (fst st) q) eqn:E; [exfalso; exact (Hs q E Hq)|]. rewrite add_bad by exact Hq. reflexivity.
  - assert (Hl' : Exists half_named l) by (inversion Hl; subst; [contradiction|assumption]).
    destruct (dmem (fst st) q) eqn:E; cbn [rbind]; [apply IH; assumption|]. 
    assert (X : exists st1, add_qname st q = Ok st1 /\ forall q', dmem (fst st1) q' = true -> q' = q \/ dmem (fst st) q' = true).
    { destruct st as [qn sp]. assert (D : forall n q', dmem (dset qn q n) q' = true -> q' = q \/ dmem qn q' = true).
      { intros n q' Hd. unfold dmem in *. rewrite dget_dset in Hd. destruct (str_eqb_spec q' q) as [Hq'|Hn]; [left; exact Hq'|right; exact Hd]. }
      destruct q as [|c r]; cbn [add_qname]; [eexists; split; [reflexivity|apply D]|]. destruct (N.eqb_spec c 123) as [->|Hc]; [|eexists; split; [reflexivity|apply D]].
      destruct (rsplit_brace r) as [[u t]|] eqn:Er.
      - destruct (dget sp u) as [p|]; cbv zeta; (eexists; split; [reflexivity|apply D]).
      - exfalso. apply Hq. exists r. split; [reflexivity|]. apply rsplit_iff. exact Er. }
    destruct X as (st1 & A1 & A2). rewrite A1. cbn [rbind]. apply IH; [|exact Hl']. intros q' H. destruct (A2 q' H) as [->|H']; [exact Hq|exact (Hs q' H')].
Qed.
Lemma got qn q : dmem qn q = true -> exists n : pystr, dgetE qn q = Ok n.
Proof. unfold dmem, dgetE. destruct (dget qn q) as [n|]; [exists n; reflexivity|discriminate]. Qed.
Lemma serialize_total qn : forall e sp, (forall q, In q (names e) -> dmem qn q = true) -> exists x, serialize qn sp e = Ok x.
Proof.
  apply (xml_rect' (fun e => forall sp, (forall q, In q (names e) -> dmem qn q = true) -> exists x, serialize qn sp e = Ok x)).
  intros t d kids IH sp Hn. cbn [names] in Hn. rewrite serialize_eq. destruct (got qn t) as (n & ->); [apply Hn; left; reflexivity|]. cbn [rbind].
  assert (A : exists items, mapM (attr_text qn) d = Ok items).
  { assert (Hd : forall q, In q (dkeys d) -> dmem qn q = true) by (intros q H; apply Hn; right; apply in_or_app; left; exact H). clear - Hd.
    induction d as [|[k v] d IH]; [exists []; reflexivity|]. destruct IH as (items & E); [intros q H; apply Hd; right; exact H|].
    cbn [mapM]. unfold attr_text at 1. cbn [fst snd]. destruct (got qn k) as (n & ->); [apply Hd; left; reflexivity|]. cbn [rbind]. rewrite E. cbn [rbind]. eexists. reflexivity. }
  destruct A as (items & ->). cbn [rbind]. cbv zeta.
  assert (K : exists ks, mapM (serialize qn []) kids = Ok ks).
  { assert (Hk : forall q, In q (flat_map names kids) -> dmem qn q = true) by (intros q H; apply Hn; right; apply in_or_app; right; exact H). clear - Hk IH.
    induction IH as [|e kids H IH IH']; [exists []; reflexivity|]. destruct (H []) as (x & E); [intros q Hq; apply Hk; cbn [flat_map]; apply in_or_app; left; exact Hq|].
    destruct IH' as (ks & E'); [intros q Hq; apply Hk; cbn [flat_map]; apply in_or_app; right; exact Hq|]. cbn [mapM]. rewrite E. cbn [rbind]. rewrite E'. cbn [rbind]. eexists. reflexivity. }
  destruct K as (ks & ->). cbn [rbind]. destruct kids; eexists; reflexivity.
Qed.
Theorem write_total e : (Forall (fun q => ~ half_named q) (names e) /\ exists x, xml_write e = Ok x) \/ (Exists half_named (names e) /\ xml_write e = Err ValueError).
Proof.
  assert (D : Forall (fun q => ~ half_named q) (names e) \/ Exists half_named (names e)).
  { induction (names e) as [|q l [IH|IH]]; [left; constructor| |right; right; exact IH]. destruct (half_dec q) as [H|H]; [right; left; exact H|left; constructor; assumption]. }
  destruct D as [D|D]; [left|right]; (split; [exact D|]); unfold xml_write, namespaces.
  - destruct (see_good (names e) ([], []) D) as ([qn sp] & E & H). rewrite E. cbn [rbind fst] in *.
    destruct (serialize_total qn e sp) as (x & ->); [intros q Hq; apply H; left; exact Hq|]. cbn [rbind]. eexists. reflexivity.
  - rewrite see_bad; [reflexivity| |exact D]. intros q H. discriminate.
Qed.
(** ** documents *)
Theorem utf8_total float_str obj_str val_str h d verbose id ex tv ps : doc_valid h d -> d_props d = MMap ps -> no_binary h d ->
  xml_doc_ok float_str obj_str val_str h d -> Forall xml_char id ->
  exists h1 t x, encode_utf8string float_str obj_str val_str h d verbose false id ex tv = (h1, Ok x) /\ xml_document t x /\ document_elem float_str h d verbose id t.
Proof.
  intros V P B X I. destruct (tree_total float_str obj_str val_str h d verbose id ex tv ps V P B) as (h1 & t & E).
  pose proof (dv_ok _ _ V) as O. pose proof (tree_expressible _ _ _ _ _ _ _ _ _ _ _ _ O X I E) as T. destruct (write_ok t T) as (x & W & Dx).
  exists h1, t, x. unfold encode_utf8string. rewrite E, W. split; [reflexivity|]. split; [exact Dx|]. exact (tree_shows _ _ _ _ _ _ _ _ _ _ _ _ O E).
Qed.
Theorem utf8_keeps float_str obj_str val_str h d verbose vns id ex tv h1 r : wf h -> known h d ->
  encode_utf8string float_str obj_str val_str h d verbose vns id ex tv = (h1, r) -> wf h1 /\ looks_same h h1.
Proof.
  intros W K. unfold encode_utf8string. destruct (encode_tree float_str obj_str val_str h d verbose vns id ex tv) as [h' [t|e]] eqn:E; intros [= <- _]; exact (tree_keeps _ _ _ _ _ _ _ _ _ _ _ _ W K E).
Qed.
(** a test, enough for the examples *)
Fixpoint expb (x : xml) : bool :=
  match x with
  | Elem t d kids => ncnameb t && Proof_XmlText.nodupb (dkeys d) && forallb (fun kv => (plainb (fst kv) || str_eqb (fst kv) xid) && legalb (snd kv)) d && forallb expb kids
  end.
Lemma expb_ok : forall x, expb x = true -> expressible x.
Proof.
  apply (xml_rect' (fun x => expb x = true -> expressible x)). intros t d kids IH H. cbn [expb] in H.
  apply andb_prop in H. destruct H as [H H4]. apply andb_prop in H. destruct H as [H H3]. apply andb_prop in H. destruct H as [H1 H2].
  apply expressible_eq. split; [apply ncnameb_ok; exact H1|]. split; [apply nodupb_sound; exact H2|]. split.
  - apply Forall_forall. intros [k v] Hin. rewrite forallb_forall in H3. specialize (H3 _ Hin). cbn [fst snd] in *. apply andb_prop in H3. destruct H3 as [Hk Hv].
    split; [|apply legalb_ok; exact Hv]. apply orb_prop in Hk. destruct Hk as [Hk|Hk]; [exists k; apply plainb_ok; exact Hk|].
    destruct (str_eqb_spec k xid) as [->|]; [exists (s "xml:id"); exact xid_name|discriminate].
  - rewrite forallb_forall in H4. rewrite Forall_forall in *. intros e He. apply IH; [exact He|apply H4; exact He].
Qed.

(** a text is only written for documents that pass the checks of compile *)
Lemma utf8_checked float_str obj_str val_str h d verbose vns id h1 x : wf h -> known h d ->
  encode_utf8string float_str obj_str val_str h d verbose vns id false true = (h1, Ok x) ->
  (forall k f t, declared h d k f t -> option_ok t /\
     (forall y, targets_layer t y -> In y (dkeys (d_layers d))) /\ (forall y, targets_text t y -> In y (dkeys (d_texts d)))) /\
  (forall k l n, doc_node h d k l n -> forall f v, In (f, v) (n_fieldsof h n) -> In f (dkeys (l_fields (h_layer h l)))) /\
  (spans_joined h d -> forall k l n, doc_node h d k l n -> schema_ok h l ->
     forall f t v, dget (l_fields (h_layer h l)) f = Some t -> dget (n_fieldsof h n) f = Some v ->
     (forall g u m, dget (l_fields (h_layer h l)) g = Some u -> dget (n_fieldsof h n) g = Some (VNode m) -> dt_class u <> KNodespan) ->
     accepts h1 t v /\ accepts h t v).
Proof.
  intros W K. unfold encode_utf8string, encode_tree, encode_intermediate. destruct (compile h d false true) as [h2 [o|e]] eqn:Ec; [|discriminate].
  intros E. assert (h2 = h1).
  { destruct (let* ts := _ in _) as [[ts ls]|]; [|discriminate]. destruct id; destruct (let* ps := _ in _); congruence. }
  subst h2. exact (compile_checked h d h1 o W K Ec).
Qed.
