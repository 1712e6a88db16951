(** Writing a tree that XML can express gives a text of that tree. *)
From Verif Require Import PyBase PyBaseFacts Proof_Codec Proof_Printout3 Spec_XmlString Spec_Xml Spec_XmlText Proof_XmlText.
From Coq Require Import Lia.
Local Open Scope N_scope.

(** ** characters of a text *)
Lemma name_legal c : between c name_ranges -> xml_char c.
Proof.
  unfold between, name_ranges, name_start_ranges. intros (p & Hp & H). cbn [app In] in Hp. unfold xml_char.
  repeat (destruct Hp as [<-|Hp]; [cbn in H; lia|]). destruct Hp.
Qed.
Lemma start_legal c : between c name_start_ranges -> xml_char c.
Proof. intros (p & Hp & H). apply name_legal. exists p. split; [apply in_or_app; left; exact Hp|exact H]. Qed.
Lemma ncname_legal x : ncname x -> Forall xml_char x.
Proof. destruct x as [|c x]; [intros []|]. intros [H1 H2]. constructor; [apply start_legal; exact H1|]. eapply Forall_impl; [apply name_legal|exact H2]. Qed.
Lemma blank_legal x : blank x -> Forall xml_char x.
Proof. apply Forall_impl. unfold xml_char. intros c [->|[->| ->]]; lia. Qed.
Definition legalb (x : pystr) : bool := forallb (fun c => (32 <=? c) && (c <=? 55295)) x.
Lemma legalb_ok x : legalb x = true -> Forall xml_char x.
Proof.
  intros H. apply Forall_forall. intros c Hc. unfold legalb in H. rewrite forallb_forall in H. specialize (H c Hc). apply andb_prop in H. destruct H as [H1 H2].
  apply N.leb_le in H1, H2. unfold xml_char. lia.
Qed.
Lemma attr_legal k n : attr_name k n -> Forall xml_char n.
Proof. destruct 1 as [x H _|x H]; [apply ncname_legal; exact H|]. apply Forall_app. split; [apply legalb_ok; reflexivity|apply ncname_legal; exact H]. Qed.
Lemma number_legal base (digit : N -> N -> Prop) k x : (forall c d, digit c d -> xml_char c) -> number base digit k x -> Forall xml_char x.
Proof. intros Hd H. apply number_digits in H. eapply Forall_impl; [|exact H]. intros c (d & E). exact (Hd c d E). Qed.
Lemma reference_legal c b : reference c b -> Forall xml_char b.
Proof.
  destruct 1 as [| | | | |c x H Hc|c x H Hc]; try (apply legalb_ok; reflexivity); (apply Forall_app; split; [apply legalb_ok; reflexivity|]); (eapply number_legal; [|exact H]).
  - cbn. intros a b [Ha _]. unfold xml_char. lia.
  - unfold hex_digit. intros a b Ha. unfold xml_char. lia.
Qed.
Lemma value_legal q v x : att_value q v x -> Forall xml_char x /\ Forall xml_char v.
Proof.
  assert (R : forall c r, reference c r -> xml_char c) by (destruct 1; try assumption; unfold xml_char; lia).
  induction 1 as [|c v x Hc H32 H38 H60 Hcq H [IH1 IH2]|c v x Hc H [IH1 IH2]|c b v x Hc H [IH1 IH2]]; [split; constructor| | |].
  - split; constructor; assumption.
  - split; constructor; try assumption; unfold xml_char; lia.
  - split; [|constructor; [exact (R _ _ Hc)|exact IH2]]. apply Forall_app; split; [apply legalb_ok; reflexivity|]. apply Forall_app; split; [exact (reference_legal _ _ Hc)|].
    apply Forall_app; split; [apply legalb_ok; reflexivity|exact IH1].
Qed.
Lemma attributes_legal d x : attributes d x -> Forall xml_char x.
Proof.
  induction 1 as [|w0 k n w1 w2 q v x d y Hw0 Hw0' Hk Hw1 Hw2 Hq Hv Hd IH]; [constructor|].
  assert (Q : Forall xml_char [q]) by (repeat constructor; unfold xml_char; lia).
  repeat (apply Forall_app; split); try exact Q; try exact IH; try (apply blank_legal; assumption).
  - exact (attr_legal _ _ Hk).
  - apply legalb_ok; reflexivity.
  - exact (proj1 (value_legal _ _ _ Hv)).
Qed.
Lemma element_legal : forall e x, element e x -> Forall xml_char x.
Proof.
  apply (element_mut (fun e x => Forall xml_char x) (fun l x => Forall xml_char x)).
  - intros t d x w Ht Hd Hn Hw. repeat (apply Forall_app; split); try (apply legalb_ok; reflexivity); [apply ncname_legal, Ht|exact (attributes_legal _ _ Hd)|apply blank_legal, Hw].
  - intros t d x w kids y w1 Ht Hd Hn Hw Hk IH Hw1. repeat (apply Forall_app; split); try (apply legalb_ok; reflexivity); try (apply ncname_legal, Ht); try (apply blank_legal; assumption); [exact (attributes_legal _ _ Hd)|exact IH].
  - constructor.
  - intros e x l y _ H _ H'. apply Forall_app. split; assumption.
Qed.
Lemma legal_written x : Forall xml_char x -> written x = x.
Proof.
  unfold written. induction 1 as [|c x Hc Hx IH]; [reflexivity|]. cbn [flat_map]. rewrite IH.
  replace (surrogate c) with false; [reflexivity|]. symmetry. unfold surrogate. apply andb_false_iff.
  destruct (55296 <=? c) eqn:E; [right|left; reflexivity]. apply N.leb_gt. apply N.leb_le in E. unfold xml_char in Hc. lia.
Qed.

(** ** names *)
Definition no_brace (x : pystr) : Prop := Forall (fun c => c <> 125) x.
Inductive raw : pystr -> pystr -> Prop :=
| rw_plain q : hd 0 q <> 123 -> raw q q
| rw_xml y : no_brace y -> raw (s "{http://www.w3.org/XML/1998/namespace}" ++ y) (s "xml:" ++ y).
Lemma ncname_brace x : ncname x -> no_brace x /\ hd 0 x <> 123.
Proof.
  assert (B : forall c, between c name_ranges -> c <> 125 /\ c <> 123) by (intros c H; apply inb_iff in H; split; intros ->; vm_compute in H; discriminate).
  destruct x as [|c x]; [intros []|]. intros [H1 H2]. assert (H1' : between c name_ranges) by (apply inb_iff; apply start_name; apply inb_iff; exact H1).
  split; [|exact (proj2 (B c H1'))]. constructor; [exact (proj1 (B c H1'))|]. eapply Forall_impl; [|exact H2]. intros a Ha. exact (proj1 (B a Ha)).
Qed.
Lemma attr_raw k n : attr_name k n -> raw k n.
Proof. destruct 1 as [x H _|x H]; constructor; apply ncname_brace; exact H. Qed.
Lemma raw_fun q n n' : raw q n -> raw q n' -> n = n'.
Proof.
  intros H H'. destruct H as [q H|y H]; inversion H' as [q' E Eq Eq'|y' E Eq Eq']; subst; try reflexivity.
  - exfalso. apply H. reflexivity.
  - exfalso. apply E. reflexivity.
Qed.
Lemma rsplit_none x : no_brace x -> rsplit_brace x = None.
Proof. induction 1 as [|c x Hc Hx IH]; [reflexivity|]. cbn [rsplit_brace]. rewrite IH. apply N.eqb_neq in Hc. rewrite Hc. reflexivity. Qed.
Lemma rsplit_app u y : no_brace y -> rsplit_brace (u ++ 125 :: y) = Some (u, y).
Proof. intros Hy. induction u as [|c u IH]; cbn [app rsplit_brace]; [rewrite rsplit_none by exact Hy; reflexivity|]. rewrite IH. reflexivity. Qed.
Lemma add_raw qn q n : raw q n -> add_qname (qn, []) q = Ok (dset qn q n, []).
Proof.
  destruct 1 as [q H|y H].
  - unfold add_qname. destruct q as [|c q]; [reflexivity|]. cbn [hd] in H. apply N.eqb_neq in H. rewrite H. reflexivity.
  - set (u := s "http://www.w3.org/XML/1998/namespace"). change (s "{http://www.w3.org/XML/1998/namespace}" ++ y) with (123 :: u ++ 125 :: y).
    unfold add_qname. cbn [N.eqb Pos.eqb]. rewrite rsplit_app by exact H. cbn [dget].
    change (known_prefix u) with (Some (s "xml")). cbv beta iota zeta. rewrite str_eqb_refl. reflexivity.
Qed.
Lemma see_raw l : forall qn, (forall q n, dget qn q = Some n -> raw q n) -> Forall (fun q => exists n, raw q n) l ->
  exists qn', see_qnames (qn, []) l = Ok (qn', []) /\ (forall q n, dget qn' q = Some n -> raw q n) /\ (forall q, In q l \/ dmem qn q = true -> dmem qn' q = true).
Proof.
  induction l as [|q l IH]; intros qn Hq Hl.
  - exists qn. split; [reflexivity|]. split; [exact Hq|]. intros q [[]|H]. exact H.
  - inversion Hl as [|? ? (n & Hn) Hl']. subst. cbn [see_qnames]. unfold see_qname. cbn [fst].
    destruct (dmem qn q) eqn:E; cbn [rbind].
    + destruct (IH qn Hq Hl') as (qn' & E1 & E2 & E3). exists qn'. split; [exact E1|]. split; [exact E2|]. intros q' [[<-|H]|H]; apply E3; tauto.
    + rewrite (add_raw qn q n Hn). cbn [rbind].
      destruct (IH (dset qn q n)) as (qn' & E1 & E2 & E3); [|exact Hl'|].
      * intros q' n' H. rewrite dget_dset in H. destruct (str_eqb_spec q' q) as [->|_]; [injection H as <-; exact Hn|apply Hq; exact H].
      * exists qn'. split; [exact E1|]. split; [exact E2|]. intros q' [[<-|H]|H]; apply E3; [right| left; exact H|right]; apply dmem_In; rewrite dkeys_dset, E; apply in_or_app; [right; left; reflexivity|left; apply dmem_In; exact H].
Qed.

(** ** escaping *)
Lemma escape_value v : Forall xml_char v -> att_value 34 v (esc_attr v).
Proof.
  assert (D : forall x v x', x = x' -> att_value 34 v x -> att_value 34 v x') by (intros; subst; assumption).
  unfold esc_attr. induction 1 as [|c v Hc Hv IH]; [constructor|]. cbn [flat_map]. unfold esc_attr_char.
  destruct (N.eqb_spec c 38) as [->|H38]; [apply (av_ref 34 38 (s "amp") _ _ rf_amp IH)|].
  destruct (N.eqb_spec c 60) as [->|H60]; [apply (av_ref 34 60 (s "lt") _ _ rf_lt IH)|].
  destruct (N.eqb_spec c 62) as [->|H62]; [apply (av_ref 34 62 (s "gt") _ _ rf_gt IH)|].
  destruct (N.eqb_spec c 34) as [->|H34]; [apply (av_ref 34 34 (s "quot") _ _ rf_quot IH)|].
  assert (Dg : forall c, 48 <= c <= 57 -> (fun c d => 48 <= c <= 57 /\ d = c - 48) c (c - 48)) by (intros; split; [assumption|reflexivity]).
  destruct (N.eqb_spec c 13) as [->|H13].
  { apply (av_ref 34 13 (s "#" ++ s "13")); [|exact IH]. apply rf_dec; [|exact Hc]. apply (nu_more 10 _ 1 [49] 51 3); [apply (nu_one 10 _ 49 1)|]; split; (lia || reflexivity). }
  destruct (N.eqb_spec c 10) as [->|H10].
  { apply (av_ref 34 10 (s "#" ++ s "10")); [|exact IH]. apply rf_dec; [|exact Hc]. apply (nu_more 10 _ 1 [49] 48 0); [apply (nu_one 10 _ 49 1)|]; split; (lia || reflexivity). }
  destruct (N.eqb_spec c 9) as [->|H9].
  { apply (av_ref 34 9 (s "#" ++ s "09")); [|exact IH]. apply rf_dec; [|exact Hc]. apply (nu_more 10 _ 0 [48] 57 9); [apply (nu_one 10 _ 48 0)|]; split; (lia || reflexivity). }
  apply av_char; try assumption. unfold xml_char in Hc. lia.
Qed.

(** ** elements *)
Fixpoint xml_rect' (P : xml -> Prop) (H : forall t d kids, Forall P kids -> P (Elem t d kids)) (x : xml) : P x :=
  match x with
  | Elem t d kids => H t d kids ((fix go (l : list xml) : Forall P l := match l with [] => Forall_nil P | y :: r => Forall_cons y (xml_rect' P H y) (go r) end) kids)
  end.
Lemma expressible_eq t d kids : expressible (Elem t d kids) <->
  ncname t /\ NoDup (dkeys d) /\ Forall (fun kv => (exists n, attr_name (fst kv) n) /\ Forall xml_char (snd kv)) d /\ Forall expressible kids.
Proof.
  cbn [expressible].
  assert (E : (fix all (l : list xml) : Prop := match l with [] => True | y :: r => expressible y /\ all r end) kids <-> Forall expressible kids).
  { induction kids as [|k kids IH]; [split; constructor|]. split; [intros [A B]; constructor; [exact A|apply IH; exact B]|intros F; inversion F; subst; split; [assumption|apply IH; assumption]]. }
  rewrite E. tauto.
Qed.
Lemma serialize_eq qn sp t d kids : serialize qn sp (Elem t d kids) =
  (let* tag := dgetE qn t in
   let* items := mapM (attr_text qn) d in
   let start := s "<" ++ tag ++ spaces_text sp ++ List.concat items in
   match kids with
   | [] => Ok (start ++ s " />")
   | _ => let* ks := mapM (serialize qn []) kids in Ok (start ++ s ">" ++ List.concat ks ++ s "</" ++ tag ++ s ">")
   end).
Proof.
  cbn [serialize]. destruct (dgetE qn t); [|reflexivity]. cbn [rbind]. destruct (mapM (attr_text qn) d); [|reflexivity]. cbn [rbind].
  destruct kids as [|k kids]; [reflexivity|].
  assert (E : forall l, (fix go (l : list xml) : res (list pystr) := match l with [] => Ok [] | y :: r => let* k := serialize qn [] y in let* q := go r in Ok (k :: q) end) l = mapM (serialize qn []) l).
  { induction l as [|y l IH]; [reflexivity|]. cbn [mapM]. rewrite IH. reflexivity. }
  rewrite <- (E (k :: kids)). reflexivity.
Qed.
Lemma attrs_ok qn : (forall q n, dget qn q = Some n -> raw q n) -> forall d, (forall q, In q (dkeys d) -> dmem qn q = true) ->
  Forall (fun kv => (exists n, attr_name (fst kv) n) /\ Forall xml_char (snd kv)) d ->
  exists items, mapM (attr_text qn) d = Ok items /\ attributes d (List.concat items).
Proof.
  intros Hq. induction d as [|[k v] d IH]; intros Hk Hd; [exists []; split; [reflexivity|constructor]|].
  inversion Hd as [|? ? [(n & Hn) Hv] Hd']. subst. cbn [fst snd] in *.
  destruct IH as (items & E & Hi); [intros q H; apply Hk; right; exact H|exact Hd'|].
  assert (M : dmem qn k = true) by (apply Hk; left; reflexivity).
  assert (G : exists n', dget qn k = Some n') by (unfold dmem in M; destruct (dget qn k) as [n'|]; [exists n'; reflexivity|discriminate]).
  destruct G as (n' & G). assert (n' = n) by (eapply raw_fun; [apply Hq; exact G|apply attr_raw; exact Hn]). subst n'.
  cbn [mapM]. unfold attr_text at 1. cbn [fst snd]. unfold dgetE. rewrite G. cbn [rbind]. rewrite E. cbn [rbind]. eexists. split; [reflexivity|].
  cbn [List.concat].
  replace ((s " " ++ n ++ s "=""" ++ esc_attr v ++ s """") ++ List.concat items) with (s " " ++ n ++ [] ++ s "=" ++ [] ++ [34] ++ esc_attr v ++ [34] ++ List.concat items)
    by (repeat (cbn [app]; rewrite <- ?app_assoc); reflexivity).
  assert (B : blank (s " ")) by (constructor; [left; reflexivity|constructor]).
  apply (at_cons (s " ") k n [] [] 34); [exact B|discriminate|exact Hn|constructor|constructor|left; reflexivity|apply escape_value; exact Hv|exact Hi].
Qed.
Lemma element_ok qn : (forall q n, dget qn q = Some n -> raw q n) -> forall e, expressible e -> (forall q, In q (names e) -> dmem qn q = true) ->
  exists x, serialize qn [] e = Ok x /\ element e x.
Proof.
  intros Hq. apply (xml_rect' (fun e => expressible e -> (forall q, In q (names e) -> dmem qn q = true) -> exists x, serialize qn [] e = Ok x /\ element e x)).
  intros t d kids IH He Hn. apply expressible_eq in He. destruct He as (Ht & Hd & Ha & Hk). cbn [names] in Hn.
  assert (G : dget qn t = Some t).
  { assert (M : dmem qn t = true) by (apply Hn; left; reflexivity). unfold dmem in M. destruct (dget qn t) as [n'|] eqn:E; [|discriminate].
    f_equal. eapply raw_fun; [apply Hq; exact E|]. apply rw_plain. exact (proj2 (ncname_brace t Ht)). }
  destruct (attrs_ok qn Hq d) as (items & E & Hi); [intros q H; apply Hn; right; apply in_or_app; left; exact H|exact Ha|].
  rewrite serialize_eq. unfold dgetE. rewrite G. cbn [rbind]. rewrite E. cbn [rbind]. change (spaces_text []) with (@nil N). cbv zeta.
  assert (K : exists ks, mapM (serialize qn []) kids = Ok ks /\ content kids (List.concat ks)).
  { assert (Hn' : forall q, In q (flat_map names kids) -> dmem qn q = true) by (intros q H; apply Hn; right; apply in_or_app; right; exact H).
    clear - IH Hk Hn'. induction IH as [|e kids H IH IH']; [exists []; split; [reflexivity|constructor]|]. inversion Hk. subst.
    destruct H as (x & E & Hx); [assumption|intros q Hq; apply Hn'; cbn [flat_map]; apply in_or_app; left; exact Hq|].
    destruct IH' as (ks & E' & Hks); [assumption|intros q Hq; apply Hn'; cbn [flat_map]; apply in_or_app; right; exact Hq|].
    exists (x :: ks). cbn [mapM]. rewrite E. cbn [rbind]. rewrite E'. cbn [rbind]. split; [reflexivity|]. cbn [List.concat]. constructor; assumption. }
  destruct K as (ks & Ek & Hc). destruct kids as [|k kids].
  - eexists. split; [reflexivity|].
    replace ((s "<" ++ t ++ [] ++ List.concat items) ++ s " />") with (s "<" ++ t ++ List.concat items ++ s " " ++ s "/>") by (repeat (cbn [app]; rewrite <- ?app_assoc); reflexivity).
    apply el_empty; try assumption. constructor; [left; reflexivity|constructor].
  - rewrite Ek. cbn [rbind]. eexists. split; [reflexivity|].
    replace ((s "<" ++ t ++ [] ++ List.concat items) ++ s ">" ++ List.concat ks ++ s "</" ++ t ++ s ">") with (s "<" ++ t ++ List.concat items ++ [] ++ s ">" ++ List.concat ks ++ s "</" ++ t ++ [] ++ s ">")
      by (repeat (cbn [app]; rewrite <- ?app_assoc); reflexivity).
    apply el_full; try assumption; constructor.
Qed.
Lemma expressible_names : forall e, expressible e -> Forall (fun q => exists n, raw q n) (names e).
Proof.
  apply (xml_rect' (fun e => expressible e -> Forall (fun q => exists n, raw q n) (names e))). intros t d kids IH He. apply expressible_eq in He.
  destruct He as (Ht & Hd & Ha & Hk). cbn [names]. constructor; [exists t; apply rw_plain; exact (proj2 (ncname_brace t Ht))|]. apply Forall_app. split.
  - unfold dkeys. apply Forall_map. eapply Forall_impl; [|exact Ha]. intros kv [(n & Hn) _]. exists n. apply attr_raw. exact Hn.
  - clear - IH Hk. induction IH as [|e kids H IH IH']; [constructor|]. inversion Hk; subst. cbn [flat_map]. apply Forall_app. split; [apply H; assumption|apply IH'; assumption].
Qed.
Theorem write_ok e : expressible e -> exists x, xml_write e = Ok x /\ xml_document e x.
Proof.
  intros He.
  destruct (see_raw (names e) []) as (qn & E & Hq & Hm); [intros q n H; discriminate|apply expressible_names; exact He|].
  assert (E' : namespaces e = Ok (qn, [])) by exact E. unfold xml_write. rewrite E'. cbn [rbind]. destruct (element_ok qn Hq e He) as (x & Ex & Hx); [intros q H; apply Hm; left; exact H|].
  rewrite Ex. cbn [rbind]. exists x. rewrite legal_written by (exact (element_legal _ _ Hx)). split; [reflexivity|].
  exists [], [], x. repeat split; try constructor; [exact Hx|]. rewrite app_nil_r. reflexivity.
Qed.
(** conversely, only trees that XML can express have a text *)
Lemma attributes_expressible d x : attributes d x -> Forall (fun kv => (exists n, attr_name (fst kv) n) /\ Forall xml_char (snd kv)) d.
Proof. induction 1; constructor; [|assumption]. split; [eexists; eassumption|]. exact (proj2 (value_legal _ _ _ H5)). Qed.
Theorem document_expressible e x : xml_document e x -> expressible e.
Proof.
  intros (a & b & y & _ & _ & He & _). revert e y He.
  apply (element_mut (fun e x => expressible e) (fun l x => Forall expressible l)).
  - intros. apply expressible_eq. repeat split; try assumption; [eapply attributes_expressible; eassumption|constructor].
  - intros. apply expressible_eq. repeat split; try assumption. eapply attributes_expressible; eassumption.
  - constructor.
  - intros. constructor; assumption.
Qed.
