(** Proofs about single values of any kind: in XML trees, and in fields that refer to nodes. *)
From Verif Require Import PyBase PyBaseFacts Model_Text Model_Heap Model_Layer Model_Types Model_Msgpack Model_Document Model_Query Model_Coerce Model_Codec Model_XmlString Model_Nodes
  Spec_Layer Spec_Types Spec_Msgpack Spec_Document Spec_Codec Spec_Query Spec_Coerce Spec_Xml Spec_AnyValue Spec_Text
  Proof_Msgpack Proof_Text Proof_Coerce Proof_Coerce2 Proof_Coerce3 Proof_Coerce4 Proof_Coerce5 Proof_Xml.
Local Open Scope Z_scope.

Section Xml.
Variable float_str : N -> pystr.
Definition of_cell (c : list mobj) : res xval :=
  match c with
  | [MInt i] => Ok (XStr (str_int i)) | [MFloat b] => Ok (XStr (float_str b)) | [MBool b] => Ok (XStr (str_bool b))
  | _ => Err Unmodelled
  end.
Lemma xml_of_cell h offs t v : In t [TI32; TI64; TF64; TBool] -> v <> VNone -> xml_encode float_str h offs t v = let* c := encode_cell h offs t v in of_cell c.
Proof.
  intros T Nv. destruct T as [<-|[<-|[<-|[<-|[]]]]]; destruct v; try congruence; cbn [xml_encode encode_cell]; try reflexivity;
    try (match goal with |- context [py_int ?u] => destruct (py_int u) end; reflexivity);
    try (match goal with |- context [py_float ?u] => destruct (py_float u) end; reflexivity);
    try (match goal with |- context [py_bool ?g ?u] => destruct (py_bool g u) end; reflexivity).
Qed.
Lemma xml_value h offs t v : wf h -> In t [TI32; TI64; TF64; TBool] -> proper v -> ~ of_type t v ->
  (exists v', converts h t v v' /\ of_type t v' /\ v' <> VNone /\ xml_encode float_str h offs t v = xml_encode float_str h offs t v') \/
  (exists e, refuses h t v e /\ xml_encode float_str h offs t v = Err e) \/
  (uncovered t v /\ xml_encode float_str h offs t v = Err Unmodelled).
Proof.
  intros W T P O. assert (Nv : v <> VNone) by (intros ->; apply O; exact Logic.I).
  assert (Pt : plain_type t) by (unfold plain_type; simpl in *; tauto). rewrite (xml_of_cell h offs t v T Nv).
  destruct (cell_outcome h offs t v W Pt P O) as [(v' & C & P' & O' & N' & Ec)|[(e & R & Ec)|[U Ec]]].
  - left. exists v'. rewrite (xml_of_cell h offs t v' T N'), Ec. auto.
  - right. left. exists e. rewrite Ec. auto.
  - right. right. rewrite Ec. auto.
Qed.
Lemma xml_string_value h offs v : v <> VNone -> (forall x, v <> VStr x) -> xml_encode float_str h offs TString v = Err TypeError.
Proof. intros A B. destruct v; try congruence; reflexivity. Qed.
Definition through (h : heap) (vns : bool) (r : res xval) : res entry := let* x := r in tree_entry h vns x.
Lemma xml_binary_value h vns offs v : wf h -> proper v -> v <> VNone -> exists e, through h vns (xml_encode float_str h offs TBinary v) = Err e /\
  (of_type TBinary v /\ e = ValueError \/ (exists v', converts h TBinary v v') /\ e = ValueError \/ refuses h TBinary v e \/ uncovered TBinary v /\ e = Unmodelled).
Proof.
  intros W P Nv. destruct (of_type_dec TBinary v) as [O|O].
  - destruct v; cbn [of_type] in O; try contradiction; try congruence; try (simpl in O; intuition discriminate). exists ValueError. split; [reflexivity|]. left. split; [exact O|reflexivity].
  - assert (E : xml_encode float_str h offs TBinary v = let* c := encode_cell h offs TBinary v in match c with [MBin x] => Ok (XRaw (VBytes x)) | _ => Err Unmodelled end).
    { destruct v; try congruence; cbn [xml_encode encode_cell]; try reflexivity; match goal with |- context [py_bytes ?g ?u] => destruct (py_bytes g u) end; reflexivity. }
    rewrite E. destruct (cell_outcome h offs TBinary v W ltac:(unfold plain_type; simpl; tauto) P O) as [(v' & C & P' & O' & N' & Ec)|[(e & R & Ec)|[U Ec]]]; rewrite Ec.
    + exists ValueError. split; [|right; left; split; [exists v'; exact C|reflexivity]]. destruct v'; cbn [of_type] in O'; try contradiction; try congruence; try (simpl in O'; intuition discriminate); reflexivity.
    + exists e. split; [reflexivity|]. auto.
    + exists Unmodelled. split; [reflexivity|]. auto.
Qed.
End Xml.

(** ** lists of nodes *)
Lemma node_i_place h n : has_number h n -> node_i h n = Ok (n_idof h n).
Proof. unfold has_number, node_i. intros H. destruct (Z.eqb_spec (n_idof h n) (-1)); [contradiction|reflexivity]. Qed.
Lemma node_i_lost h n : n_idof h n = -1 -> node_i h n = Err AssertionError.
Proof. unfold node_i. intros ->. reflexivity. Qed.
Lemma elems_ok h ns : Forall (has_number h) ns -> mapM (elem_i h) (map Some ns) = Ok (map (n_idof h) ns).
Proof. induction 1 as [|n ns H F IH]; [reflexivity|]. cbn [map mapM elem_i]. rewrite (node_i_place h n H), IH. reflexivity. Qed.
Lemma elems_err h ns o r e : Forall (has_number h) ns -> elem_i h o = Err e -> mapM (elem_i h) (map Some ns ++ o :: r) = Err e.
Proof. induction 1 as [|n ns H F IH]; intros E; cbn [map app mapM elem_i]; [rewrite E; reflexivity|]. rewrite (node_i_place h n H), (IH E). reflexivity. Qed.
Lemma ids_ok h ns : mapM (id_str h) (map Some ns) = Ok (map (fun n => str_int (n_idof h n)) ns).
Proof. induction ns as [|n ns IH]; [reflexivity|]. cbn [map mapM id_str]. cbn [rbind]. rewrite IH. reflexivity. Qed.
Lemma ids_err h ns r : mapM (id_str h) (map Some ns ++ None :: r) = Err AttributeError.
Proof. induction ns as [|n ns IH]; [reflexivity|]. cbn [map app mapM id_str rbind]. rewrite IH. reflexivity. Qed.
Lemma span_str_slice t a b : 0 <= a <= b -> b <= zlen t -> span_str (mkSpan t a b) = firstn (Z.to_nat (b - a)) (skipn (Z.to_nat a) t).
Proof. intros A B. unfold span_str. cbn [sp_text sp_start sp_stop]. apply (span_str_sub (mkSpan t a b)). unfold in_bounds. cbn [sp_text sp_start sp_stop]. lia. Qed.
(** the two codecs, in terms of the elements *)
Lemma many_cell h offs v l : proper v -> listed h v l -> encode_cell h offs TNodeRefMany v = match l with [] => Ok [MNil] | _ => let* is := mapM (elem_i h) l in Ok [MArr (map MInt is)] end.
Proof.
  intros P L. destruct L as [l|a b ns E|x|x|c t a b|n]; cbn [encode_cell value_elems rbind other_elems py_len].
  - reflexivity.
  - rewrite E. reflexivity.
  - destruct x; reflexivity.
  - destruct x; reflexivity.
  - destruct P as [P1 P2]. replace (b - a <? 0) with false by (symmetry; apply Z.ltb_ge; lia). cbn [rbind]. rewrite (span_str_slice t a b) by assumption.
    destruct (Z.eqb_spec (b - a) 0) as [E|E]; [rewrite E; reflexivity|]. destruct (firstn (Z.to_nat (b - a)) (skipn (Z.to_nat a) t)) as [|c0 q] eqn:Q; [|reflexivity].
    exfalso. apply (f_equal (@length N)) in Q. rewrite firstn_length, skipn_length in Q. unfold zlen in P2. cbn in Q. lia.
  - destruct (n_fieldsof h n); reflexivity.
Qed.
Lemma many_xml float_str h offs v l : proper v -> listed h v l -> xml_encode float_str h offs TNodeRefMany v = let* xs := mapM (id_str h) l in Ok (XList xs).
Proof.
  intros P L. destruct L as [l|a b ns E|x|x|c t a b|n]; cbn [xml_encode value_elems rbind other_ids].
  - reflexivity.
  - rewrite E. reflexivity.
  - destruct x; reflexivity.
  - destruct x; reflexivity.
  - destruct P as [P1 P2]. rewrite (span_str_slice t a b) by assumption. destruct (firstn _ _); reflexivity.
  - destruct (n_fieldsof h n); reflexivity.
Qed.
Lemma many_refused float_str h offs v e : not_listed h v e -> encode_cell h offs TNodeRefMany v = Err e /\ xml_encode float_str h offs TNodeRefMany v = Err e.
Proof. intros [u H|a b x H]; [destruct u; try contradiction; auto|]. cbn [encode_cell xml_encode value_elems]. rewrite H. auto. Qed.
Lemma many_covered h v : v <> VNone -> (forall k, v <> VOther k) -> (exists l, listed h v l) \/ (exists e, not_listed h v e).
Proof.
  intros A B. destruct v as [|b|i|b|x|x|c t a b|n|a b|l|x y|k]; try congruence; try solve [left; eexists; constructor]; try solve [right; eexists; apply nl_plain; exact Logic.I].
  destruct (nodespan_iter h a b) as [ns|e] eqn:E; [left|right]; eexists; constructor; exact E.
Qed.
Lemma many_fine h offs v l float_str : proper v -> listed h v l ->
  (l = [] -> encode_cell h offs TNodeRefMany v = Ok [MNil] /\ xml_encode float_str h offs TNodeRefMany v = Ok (XList [])) /\
  (forall ns, l = map Some ns -> xml_encode float_str h offs TNodeRefMany v = Ok (XList (map (fun n => str_int (n_idof h n)) ns)) /\
     (ns <> [] -> Forall (has_number h) ns -> encode_cell h offs TNodeRefMany v = Ok [MArr (map (fun n => MInt (n_idof h n)) ns)])) /\
  (forall ns r, l = map Some ns ++ None :: r -> xml_encode float_str h offs TNodeRefMany v = Err AttributeError /\
     (Forall (has_number h) ns -> encode_cell h offs TNodeRefMany v = Err AttributeError)) /\
  (forall ns n r, l = map Some ns ++ Some n :: r -> Forall (has_number h) ns -> ~ has_number h n -> encode_cell h offs TNodeRefMany v = Err AssertionError).
Proof.
  intros P L. rewrite (many_cell h offs v l P L), (many_xml float_str h offs v l P L). repeat split.
  - subst l. reflexivity.
  - subst l. reflexivity.
  - subst l. rewrite ids_ok. reflexivity.
  - intros Nn F. subst l. destruct ns as [|n ns]; [congruence|]. cbn [map]. change (Some n :: map Some ns) with (map Some (n :: ns)). rewrite (elems_ok h (n :: ns) F). cbn [rbind]. rewrite map_map. reflexivity.
  - subst l. rewrite ids_err. reflexivity.
  - intros F. subst l. rewrite (elems_err h ns None r AttributeError F eq_refl). destruct ns; reflexivity.
  - intros ns n r E F Hn. subst l. assert (E : n_idof h n = -1) by (unfold has_number in Hn; lia). rewrite (elems_err h ns (Some n) r AssertionError F (node_i_lost h n E)). destruct ns; reflexivity.
Qed.

(** ** single nodes *)
Lemma ref_cell h offs float_str v : v <> VNone ->
  match v with
  | VNode n => xml_encode float_str h offs TNodeRef v = Ok (XStr (str_int (n_idof h n))) /\
               (has_number h n -> encode_cell h offs TNodeRef v = Ok [MInt (n_idof h n)]) /\ (~ has_number h n -> encode_cell h offs TNodeRef v = Err AssertionError)
  | _ => xml_encode float_str h offs TNodeRef v = Err AttributeError /\ encode_cell h offs TNodeRef v = Err AttributeError
  end.
Proof.
  intros Nv. destruct v; try congruence; try (split; reflexivity). split; [reflexivity|]. cbn [encode_cell]. split; intros H; [rewrite (node_i_place h n H); reflexivity|].
  rewrite node_i_lost by (unfold has_number in H; lia). reflexivity.
Qed.
(** ** node spans *)
Lemma nodespan_cell h offs a b :
  (has_number h a -> has_number h b -> encode_cell h offs TNodeRefSpan (VNodeSpan a b) = Ok [MArr [MInt (n_idof h a); MInt (n_idof h b - n_idof h a)]]) /\
  (~ has_number h a \/ ~ has_number h b -> encode_cell h offs TNodeRefSpan (VNodeSpan a b) = Err AssertionError).
Proof.
  cbn [encode_cell value_left value_right rbind elem_i]. split.
  - intros A B. rewrite (node_i_place h a A), (node_i_place h b B). reflexivity.
  - unfold has_number, node_i. destruct (Z.eqb_spec (n_idof h a) (-1)), (Z.eqb_spec (n_idof h b) (-1)); intros; try reflexivity. lia.
Qed.
Lemma nodespan_entry h vns a b :
  (forall l, n_collof h a = Some l -> has_number h a -> has_number h b ->
     tree_entry h vns (XRaw (VNodeSpan a b)) = Ok (EEmbed [(s "from", l_nameof h l ++ s "." ++ str_int (n_idof h a)); (s "to", l_nameof h l ++ s "." ++ str_int (n_idof h b))])) /\
  (n_collof h a = None -> tree_entry h vns (XRaw (VNodeSpan a b)) = Err AttributeError) /\
  (n_collof h a <> None -> ~ has_number h a \/ ~ has_number h b -> tree_entry h vns (XRaw (VNodeSpan a b)) = Err AssertionError).
Proof.
  cbn [tree_entry]. unfold node_name. repeat split.
  - intros l -> A B. cbn [rbind]. rewrite (node_i_place h a A), (node_i_place h b B). reflexivity.
  - intros ->. reflexivity.
  - destruct (n_collof h a) as [l|]; [|congruence]. intros _. cbn [rbind]. unfold has_number, node_i. destruct (Z.eqb_spec (n_idof h a) (-1)), (Z.eqb_spec (n_idof h b) (-1)); intros; try reflexivity. lia.
Qed.
Lemma nodespan_others h offs v : v <> VNone -> (forall a b, v <> VNodeSpan a b) -> (forall n, v <> VNode n) -> encode_cell h offs TNodeRefSpan v = Err AttributeError.
Proof. intros A B C. destruct v; try congruence; reflexivity. Qed.
Lemma nodespan_node h offs n a b : node_left h n = Ok (Some a) -> node_right h n = Ok (Some b) -> encode_cell h offs TNodeRefSpan (VNode n) = encode_cell h offs TNodeRefSpan (VNodeSpan a b).
Proof. intros A B. cbn [encode_cell value_left value_right]. rewrite A, B. reflexivity. Qed.
Lemma nodespan_edge h offs n : node_left h n = Ok None -> encode_cell h offs TNodeRefSpan (VNode n) = Err AttributeError.
Proof. intros A. cbn [encode_cell value_left value_right]. rewrite A. reflexivity. Qed.
Lemma nodespan_raw float_str h vns offs v :
  through h vns (xml_encode float_str h offs TNodeRefSpan v) =
  match v with
  | VStr x => Ok (ESimple x)
  | VNodeSpan a b => tree_entry h vns (XRaw v)
  | VNodeList [] => Ok (EArray [])
  | VNodeList _ => Err Unmodelled
  | VNode n => Err (if node_repr_ok h n then ValueError else AttributeError)
  | _ => Err ValueError
  end.
Proof. destruct v as [| | | | | | |n|a b|[|o l]| |]; try reflexivity. cbn [xml_encode through rbind tree_entry value_repr]. unfold through. cbn [rbind tree_entry value_repr]. destruct (node_repr_ok h n); reflexivity. Qed.
(** ** text spans *)
Lemma span_cell h vns offs float_str v : v <> VNone ->
  match v with
  | VSpan c t a b =>
      match offset_id offs a, offset_id offs b with
      | Some i, Some j => encode_cell h offs TSpan v = Ok [MInt i; MInt j] /\
          through h vns (xml_encode float_str h offs TSpan v) = if vns then Err TypeError else Ok (EEmbed [(s "from", str_int i); (s "until", str_int j)])
      | _, _ => encode_cell h offs TSpan v = Err KeyError /\ through h vns (xml_encode float_str h offs TSpan v) = Err KeyError
      end
  | _ => encode_cell h offs TSpan v = Err AttributeError /\ through h vns (xml_encode float_str h offs TSpan v) = Err AttributeError
  end.
Proof.
  intros Nv. destruct v; try congruence; try (split; reflexivity). cbn [encode_cell]. unfold through. cbn [xml_encode rbind tree_entry]. unfold offset_str.
  destruct (offset_id offs start); [|split; reflexivity]. cbn [rbind]. destruct (offset_id offs stop); [|split; reflexivity]. cbn [rbind]. split; reflexivity.
Qed.

(** ** texts of node spans *)
Lemma nodespan_text_fails h a b f :
  (dget (n_fieldsof h a) f = None \/ dget (n_fieldsof h b) f = None -> nodespan_text h a b f = Err KeyError /\ nodespan_textspan h a b f = Err KeyError) /\
  (forall x y, dget (n_fieldsof h a) f = Some x -> dget (n_fieldsof h b) f = Some y ->
     (forall c t p q, x <> VSpan c t p q) \/ (forall c t p q, y <> VSpan c t p q) -> nodespan_text h a b f = Err AttributeError /\ nodespan_textspan h a b f = Err AttributeError).
Proof.
  unfold nodespan_text, nodespan_textspan, dgetE. split.
  - destruct (dget (n_fieldsof h a) f); [|auto]. destruct (dget (n_fieldsof h b) f); [intros [|]; discriminate|]. auto.
  - intros x y -> ->. cbn [rbind]. intros C. destruct x; try (split; reflexivity). destruct y; try (split; reflexivity). exfalso. destruct C as [C|C]; eapply C; reflexivity.
Qed.
