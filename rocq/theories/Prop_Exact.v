(** What the code does in the cases that C06, C12, C15, C44 and C61 leave out. *)
From Verif Require Import PyBase Model_Heap Model_Layer Model_Types Model_Text Model_Graph Model_Nodes.
From Verif Require Import Spec_Layer Spec_Text Spec_Nodes Spec_Graph Spec_Exact Proof_Layer4 Proof_Exact Proof_Exact2 Prop_Layer Prop_Graph Prop_Nodes Prop_Text.
Local Open Scope Z_scope.

(** C06: if the first character is whitespace, exactly the leading whitespace goes; if there is nothing else, the span at its start is left. *)
Theorem C06_leading : forall isspace x, in_bounds x -> sp_start x < sp_stop x ->
  (forall c, nth_error (sp_text x) (Z.to_nat (sp_start x)) = Some c -> isspace c = true) ->
  exists pre post, span_str x = pre ++ post /\ all_space isspace pre /\ match post with [] => True | c :: _ => isspace c = false end /\
  trim isspace x = Ok (mkSpan (sp_text x) (match post with [] => sp_start x | _ => sp_start x + zlen pre end) (match post with [] => sp_start x | _ => sp_stop x end)).
Proof. exact trim_leading. Qed.
Print Assumptions C06_leading.
Example C06_leading_case : trim blank (mkSpan (s "  a  ") 0 5) = Ok (mkSpan (s "  a  ") 2 5) /\ trim blank (mkSpan (s "  a  ") 3 5) = Ok (mkSpan (s "  a  ") 3 3).
Proof. vm_compute. split; reflexivity. Qed.

(** C12: which exception remove raises *)
Theorem C12_error : forall h l n, layer_contains h l n = false ->
  (snd (layer_remove h l n) = Err AttributeError <-> unprintable h n) /\ (snd (layer_remove h l n) = Err ValueError <-> ~ unprintable h n).
Proof. exact remove_error. Qed.
Print Assumptions C12_error.
(** With several nodes (b: in a list), repr is applied to all of them, after the removals. *)
Theorem C12_error_many : forall h l b items h' r, wf h -> layer_remove_many h l b items = (h', r) -> forall c, layer_iter h l = map Some c ->
  match stops_at c items with
  | None => r = Ok tt
  | Some (RNode n) =>
      (b = true -> (exists n, In (RNode n) items /\ unprintable h' n) -> r = Err AttributeError) /\
      (b = false \/ ~ (exists n, In (RNode n) items /\ unprintable h' n) -> r = Err ValueError)
  | Some _ => r = Err ValueError
  end.
Proof. exact remove_many_error. Qed.
Print Assumptions C12_error_many.
Example C12_error_case : layer_contains demo 0%nat 2%nat = false /\ unprintable demo 2%nat /\ wf demo /\ layer_iter demo 0%nat = map Some [0; 1; 3; 4]%nat /\
  stops_at [0; 1; 3; 4]%nat [RNode 4; RNone; RNode 4]%nat = Some (RNode 4%nat) /\ stops_at [0; 1; 3; 4]%nat [RNode 4; RNode 0]%nat = None.
Proof. split; [vm_compute; reflexivity|]. split; [vm_compute; split; [reflexivity|discriminate]|]. split; [exact demo_wf|]. vm_compute. auto. Qed.

(** C15: an argument that is not a node of the layer: ValueError, or AttributeError if it is no node or has no repr.  The
    layer is as before, but the nodes before that argument have negative numbers. *)
Theorem C15_foreign : forall h l ns o rest h' r, wf h -> (forall n, In n ns -> layer_contains h l n = true) ->
  (forall n, o = Some n -> layer_contains h l n = false) -> layer_retain h l (map Some ns ++ o :: rest) = (h', r) ->
  r = Err (match o with Some n => value_error_repr h [n] | None => AttributeError end) /\
  h_layer h' = h_layer h /\ (forall n, n_collof h' n = n_collof h n /\ n_fieldsof h' n = n_fieldsof h n) /\
  (forall n, n_idof h' n = if mem_nid n ns then - (n_idof h n + 1) else n_idof h n).
Proof. exact retain_foreign. Qed.
Print Assumptions C15_foreign.
(** A layer with a gap, c before the gap: AttributeError; the nodes of c are sorted out, those to keep (k) are moved to the
    front and have their new numbers, the others are in no layer; the slots behind k are as before, so that nodes are
    in two slots or in a slot without being in the layer; nodes to keep behind the gap have negative numbers. *)
Theorem C15_gap : forall h l c tl ns h' r, wf h -> l_nodesof h l = map Some c ++ None :: tl -> (forall n, In n ns -> layer_contains h l n = true) ->
  layer_retain h l (map Some ns) = (h', r) ->
  let k := filter (fun n => mem_nid n ns) c in
  r = Err AttributeError /\ (forall n, n_fieldsof h' n = n_fieldsof h n) /\ (forall l', l' <> l -> h_layer h' l' = h_layer h l') /\
  l_nodesof h' l = map Some k ++ skipn (length k) (l_nodesof h l) /\ l_numof h' l = l_numof h l - (zlen c - zlen k) /\
  (forall n, n_collof h' n = if mem_nid n c && negb (mem_nid n ns) then None else n_collof h n) /\
  (forall p n, nth_error k p = Some n -> n_idof h' n = Z.of_nat p) /\
  (forall n, ~ In n k -> n_idof h' n = if mem_nid n ns then - (n_idof h n + 1) else n_idof h n).
Proof. exact retain_gap. Qed.
Print Assumptions C15_gap.
Example C15_exact_case : wf demo /\ l_nodesof demo 0%nat = map Some [0; 1]%nat ++ None :: [Some 3; Some 4; None]%nat /\
  layer_contains demo 0%nat 1%nat = true /\ layer_contains demo 0%nat 4%nat = true /\ layer_contains demo 0%nat 2%nat = false /\
  l_nodesof (fst (layer_retain demo 0%nat [Some 1; Some 4]%nat)) 0%nat = [Some 1; Some 1; None; Some 3; Some 4; None]%nat /\
  snd (layer_retain demo 0%nat [Some 1; Some 2]%nat) = Err AttributeError /\ n_idof (fst (layer_retain demo 0%nat [Some 1; Some 2]%nat)) 1%nat = -2.
Proof. split; [exact demo_wf|]. vm_compute. repeat split. Qed.

(** C44: with two or more fields, children go from field to field. *)
Theorem C44_several : forall fields h fs, (2 <= length fs)%nat -> (forall n f, In f fs -> field_fits fields h n f /\ all_nodes h n f) ->
  exists y, children_of fields fs = Ok y /\ forall n, y h (VNode n) = Ok (map VNode (walked h n fs)).
Proof. exact children_walked. Qed.
Print Assumptions C44_several.
Example C44_several_case : (forall n f, In f [s "a"; s "b"] -> field_fits kin_fields kin n f /\ all_nodes kin n f) /\ walked kin 0%nat [s "a"; s "b"] = [1; 3]%nat /\
  nodes_in kin 0%nat (s "a") ++ nodes_in kin 0%nat (s "b") = [1; 2]%nat.
Proof.
  split; [|vm_compute; split; reflexivity]. intros n f I. split; [apply kin_fits, I|]. intros l.
  destruct I as [<-|[<-|[]]]; destruct n as [|[|n]]; vm_compute; intros E; try discriminate; injection E as <-; intros [D|[]]; discriminate.
Qed.

(** C61: with spans of two texts, the text of the left node from its start to the offset at which the other span stops *)
Theorem C61_two_texts : forall h a b f name name' t t' p q p' q',
  dget (n_fieldsof h a) f = Some (VSpan name t p q) -> dget (n_fieldsof h b) f = Some (VSpan name' t' p' q') -> 0 <= p <= zlen t -> 0 <= q' ->
  nodespan_text h a b f = Ok (chars t p q') /\
  nodespan_textspan h a b f = (if Z.min q' (zlen t) <? p then Err DataValidationError else Ok (VSpan name t p (Z.min q' (zlen t)))).
Proof. exact two_texts. Qed.
Print Assumptions C61_two_texts.
Example C61_two_texts_case : dget (n_fieldsof text_heap 0%nat) (s "text") = Some (VSpan (s "main") (s "The big cat.") 0 3) /\
  dget (n_fieldsof text_heap 3%nat) (s "text") = Some (VSpan (s "title") (s "Cats") 0 4) /\ nodespan_text text_heap 0%nat 3%nat (s "text") = Ok (s "The ") /\
  nodespan_textspan text_heap 2%nat 3%nat (s "text") = Err DataValidationError.
Proof. vm_compute. repeat split. Qed.
