(** C81: representations tell what they represent. *)
From Verif Require Import PyBase Model_Text Model_Heap Model_Types Model_Query Model_Coerce Model_PyRepr Spec_Xml Spec_PyRepr Proof_PyRepr Prop_Query.
Local Open Scope Z_scope.

Theorem C81_values printable v : (plain v -> exists t, value_repr printable v = Ok t) /\
  (shown_value v -> forall t, value_repr printable v = Ok t -> value_text v t /\ forall w, shown_value w -> value_repr printable w = Ok t -> v = w).
Proof. split; [exact (plain_shown printable v)|]. intros S t H. split; [exact (value_ok printable v t S H)|]. intros w S' H'. exact (value_told printable v w t S S' H H'). Qed.
Print Assumptions C81_values.
Example C81_values_case : value_repr (fun c => negb (c =? 160)%N) (VStr ([105; 39; 10; 92; 160; 233]%N ++ s "z")) = Ok ([34; 105; 39]%N ++ s "\n\\\xa0" ++ [233; 122; 34]%N) /\
  shown_value (VStr ([105; 39; 10; 92; 160; 233]%N ++ s "z")) /\ plain (VInt (-20)) /\ value_repr (fun _ => true) (VBytes [0; 200; 65]%N) = Ok (s "b'\x00\xc8A'").
Proof.
  split; [vm_compute; reflexivity|]. split; [repeat (apply Forall_cons; [reflexivity|]); apply Forall_nil|]. split; [|vm_compute; reflexivity].
  intros t T. replace t with (Model_Xml.str_int (-20)) by exact (int_text_unique (-20) _ _ (Proof_Xml.str_int_text (-20)) T). vm_compute. discriminate.
Qed.

Theorem C81_predicates printable p : (plain_pred p -> exists t, pred_repr printable p = Ok t) /\
  (shown_pred p -> forall t, pred_repr printable p = Ok t ->
   pred_text p t /\ forall q, shown_pred q -> pred_repr printable q = Ok t -> strict p = strict q /\ (~ weak p -> ~ weak q -> p = q)).
Proof. split; [exact (plain_pred_shown printable p)|]. intros S t H. split; [exact (pred_ok printable p t S H)|]. intros q S' H'. exact (pred_told printable p q t S S' H H'). Qed.
Print Assumptions C81_predicates.
Example C81_predicates_case : let p := PAnd (PNot (PEq (s "pos") (VStr (s "NN")))) (POr (POrd OLe (s "i") (VInt 3)) (PNeq (s "x, y") VNone)) in
  shown_pred p /\ ~ weak p /\ pred_repr (fun _ => true) p = Ok (s "And(Not(({pos} == 'NN')), Or(({i} <= 3), ({x, y} != None)))").
Proof.
  assert (C : chars (s "NN")) by (repeat (apply Forall_cons; [reflexivity|]); apply Forall_nil).
  cbv zeta. split; [|split; [cbn; tauto|vm_compute; reflexivity]]. cbn [shown_pred shown_value]. repeat split; try exact C; vm_compute; intuition discriminate.
Qed.

(** a predicate with >= looks like the one with >, which is another condition *)
Theorem C81_ge_refuted : exists p q n t, pred_repr (fun _ => true) p = Ok t /\ pred_repr (fun _ => true) q = Ok t /\ shown_pred p /\ shown_pred q /\
  sat no_same q_heap p n = Ok true /\ sat no_same q_heap q n = Ok false.
Proof. exists (POrd OGe (s "i") (VInt 3)), (POrd OGt (s "i") (VInt 3)), 0%nat, (s "({i} > 3)"). vm_compute. intuition discriminate. Qed.
Print Assumptions C81_ge_refuted.

Theorem C81_types printable t t' x :
  Forall (fun kv => chars (fst kv) /\ shown_value (snd kv)) (dt_opts t) -> Forall (fun kv => chars (fst kv) /\ shown_value (snd kv)) (dt_opts t') ->
  dtype_repr printable t = Ok x -> dtype_repr printable t' = Ok x -> dt_name t = dt_name t' /\ dt_opts t = dt_opts t'.
Proof. exact (dtype_back printable t t' x). Qed.
Print Assumptions C81_types.
Example C81_types_case : dtype_repr (fun _ => true) (T_noderef (s "token")) = Ok (s "DataType(type=noderef, options={'layer': 'token'})") /\
  dtype_repr (fun _ => true) (mkDT KBase TExt [(s "type", VStr (s "a")); (s "n", VInt 7)]) = Ok (s "DataType(type=ext, options={'type': 'a', 'n': 7})") /\
  Forall (fun kv => chars (fst kv) /\ shown_value (snd kv)) (dt_opts (T_noderef (s "token"))).
Proof. split; [vm_compute; reflexivity|]. split; [vm_compute; reflexivity|]. apply Forall_cons; [|apply Forall_nil]. split; (repeat (apply Forall_cons; [reflexivity|]); apply Forall_nil). Qed.

Theorem C81_spans printable n n' x x' a b a' b' : ~ In 91%N n -> ~ In 91%N n' -> chars x -> chars x' ->
  span_text_repr printable n x a b = span_text_repr printable n' x' a' b' -> n = n' /\ a = a' /\ b = b' /\ span_str (mkSpan x a b) = span_str (mkSpan x' a' b').
Proof. exact (span_back printable n n' x x' a b a' b'). Qed.
Print Assumptions C81_spans.
Example C81_spans_case : span_text_repr (fun _ => true) (s "main") (s "It's here") 0 4 = s "span(main[0:4]) = " ++ [34; 73; 116; 39; 115; 34]%N /\ chars (s "It's here").
Proof. split; [vm_compute; reflexivity|]. repeat (apply Forall_cons; [reflexivity|]); apply Forall_nil. Qed.

Theorem C81_layers h h' l l' : layer_repr h l = layer_repr h' l' -> l_nameof h l = l_nameof h' l' /\ l_numof h l = l_numof h' l'.
Proof. exact (layer_back h h' l l'). Qed.
Print Assumptions C81_layers.
Example C81_layers_case : layer_repr q_heap 0%nat = s "Layer(tok, N=4)".
Proof. vm_compute. reflexivity. Qed.
