(** Properties C20 and C22 in the cases that C20_validate_partial and C22_compiled_partial leave out. *)
From Verif Require Import PyBase PyBaseFacts Model_Text Model_Heap Model_Layer Model_Types Model_Msgpack Model_Document Model_Codec
  Spec_Layer Spec_History Spec_Types Spec_Document Spec_Exact Spec_Refusal Proof_Layer4 Proof_Types Proof_Refusal Prop_Types Prop_Document.
Local Open Scope Z_scope.

(** C20: what validate and Node.is_valid do with every node of a layer.  The first field of the schema with a value that is not
    admitted decides; is_valid turns AssertionError into False and lets other exceptions through. *)
Theorem C20_exact : forall h l n, wf h -> n_collof h n = Some l -> schema_ok h l ->
  (node_valid h l n /\ validate h l n = Ok true /\ node_is_valid h n = Ok true) \/
  (exists f d v name, first_refused h l n f d v /\ type_ok d name /\ refuses h name (dt_class d) v (validate h l n) /\
     node_is_valid h n = match validate h l n with Err AssertionError => Ok false | r => r end).
Proof. exact validate_outcomes. Qed.
Print Assumptions C20_exact.
(** field and outcome are determined *)
Theorem C20_determined :
  (forall h l n f d v f' d' v', first_refused h l n f d v -> first_refused h l n f' d' v' -> f = f' /\ d = d' /\ v = v') /\
  (forall h name c v r r', wf h -> refuses h name c v r -> refuses h name c v r' -> r = r').
Proof. split; [exact first_unique|exact refuses_fun]. Qed.
Print Assumptions C20_determined.
(** the only way to the answer False: a Node with a node on either side, in a layer of the declared name *)
Theorem C20_false : forall h l n, wf h -> n_collof h n = Some l -> schema_ok h l ->
  (validate h l n = Ok false <-> exists f d m lm c x y c', first_refused h l n f d (VNode m) /\ dt_class d = KNodespan /\
     dget (dt_opts d) (s "layer") = Some (VStr (l_nameof h lm)) /\ n_collof h m = Some lm /\ layer_iter h lm = map Some (c ++ x :: m :: y :: c')).
Proof. exact validate_false. Qed.
Print Assumptions C20_false.
Example C20_exact_case : wf three /\ schema_ok three 0%nat /\ n_collof three 0%nat = Some 0%nat /\ n_collof three 1%nat = Some 0%nat
  /\ first_refused three 0%nat 0%nat (s "r") (T_noderef (s "t")) (VInt 5) /\ first_refused three 0%nat 1%nat (s "ns") (T_nodespan (s "t")) (VNode 1%nat)
  /\ node_is_valid three 0%nat = Err AttributeError /\ node_is_valid three 1%nat = Ok false /\ node_is_valid three 2%nat = Ok true
  /\ node_is_valid (set_fields three 2%nat [(s "ns", VNode 0%nat)]) 2%nat = Ok false
  /\ validate (set_fields three 2%nat [(s "ns", VNode 0%nat)]) 0%nat 2%nat = Err AssertionError.
Proof.
  split; [exact three_wf|]. split; [exact three_schema|]. split; [vm_compute; reflexivity|]. split; [vm_compute; reflexivity|]. split.
  { exists [(s "ns", T_nodespan (s "t"))], []. split; [vm_compute; reflexivity|]. split; [|split; [vm_compute; reflexivity|]].
    - intros g t w [[= <- <-]|[]] V. vm_compute in V. discriminate.
    - intros (name & _ & A). inversion A. }
  split.
  { exists [], [(s "r", T_noderef (s "t"))]. split; [vm_compute; reflexivity|]. split; [intros g t w []|]. split; [vm_compute; reflexivity|].
    intros (name & _ & A). inversion A. }
  vm_compute. repeat split.
Qed.

(** C22: after an encoding that succeeds, every node is valid, but for those whose first bad field is a Node as in C20_false. *)
Theorem C22_exact : forall h d h1 b, wf h -> known h d -> msgpack_encode h d false true = (h1, Ok b) -> spans_joined h d ->
  forall k l n, doc_node h d k l n -> schema_ok h l ->
  node_valid h l n \/ exists f t m lm c x y c', first_refused h l n f t (VNode m) /\ dt_class t = KNodespan /\
     dget (dt_opts t) (s "layer") = Some (VStr (l_nameof h lm)) /\ n_collof h m = Some lm /\ layer_iter h lm = map Some (c ++ x :: m :: y :: c').
Proof. exact encode_valid. Qed.
Print Assumptions C22_exact.
(** both cases occur *)
Example C22_exact_case : wf mid_heap /\ known mid_heap mid_doc /\ spans_joined mid_heap mid_doc /\
  (exists b, snd (msgpack_encode mid_heap mid_doc false true) = Ok b) /\
  doc_node mid_heap mid_doc (s "t") 0%nat 0%nat /\ node_is_valid mid_heap 0%nat = Ok true /\
  doc_node mid_heap mid_doc (s "t") 0%nat 1%nat /\ node_is_valid mid_heap 1%nat = Ok false.
Proof.
  split; [apply ops_ok_wf, ops_okb_sound; vm_compute; reflexivity|]. split; [intros k l [[= <- <-]|[]]; vm_compute; auto|]. split.
  - intros k l n f a b [[[= <- <-]|[]] I] V. assert (Q : n = 0%nat \/ n = 1%nat \/ n = 2%nat) by (vm_compute in I; intuition congruence).
    destruct Q as [-> |[-> | ->]]; vm_compute in V; try discriminate. repeat match type of V with (if ?x then _ else _) = _ => destruct x end; discriminate.
  - split; [eexists; vm_compute; reflexivity|]. repeat split; try (vm_compute; auto; fail).
Qed.

(** C19: the values that the types made by the constructors accept *)
Theorem C19_made : forall h v x,
  (accepts h (T_bool VNone) v <-> exists b, v = VBool b) /\
  (accepts h (T_int32 VNone) v <-> exists i, int_value v i /\ -2147483648 <= i <= 2147483647) /\
  (accepts h (T_int64 VNone) v <-> exists i, int_value v i /\ -9223372036854775808 <= i <= 9223372036854775807) /\
  (accepts h (T_float64 VNone) v <-> exists b, v = VFloat b) /\
  (accepts h (T_string VNone) v <-> exists t, v = VStr t /\ zlen t < 2147483648) /\
  (accepts h T_binary v <-> exists t, v = VBytes t /\ zlen t < 2147483648) /\
  (accepts h (T_span x) v <-> exists t a b, v = VSpan x t a b) /\
  (accepts h (T_noderef x) v <-> exists n, v = VNode n /\ in_named h x n) /\
  (accepts h (T_noderef_many x) v <-> (exists ns, v = VNodeList (map Some ns) /\ forall n, In n ns -> in_named h x n) \/
     exists a b ns, v = VNodeSpan a b /\ nodespan_iter h a b = Ok ns /\ forall n, In n ns -> in_named h x n) /\
  (accepts h (T_nodespan x) v <-> exists a b i j, v = VNodeSpan a b /\ in_named h x a /\ in_named h x b /\ node_i h a = Ok i /\ node_i h b = Ok j /\ i <= j) /\
  accepts h (T_ext x) v.
Proof. exact made_types. Qed.
Print Assumptions C19_made.
Example C19_made_case : accepts three (T_nodespan (s "t")) (VNodeSpan 0%nat 1%nat) /\ ~ accepts three (T_bool VNone) (VInt 1) /\ accepts three (T_int32 VNone) (VBool true).
Proof.
  split; [exists (s "t"); split; [split; reflexivity|eapply ad_nodespan; [exists 0%nat; split; vm_compute; reflexivity|exists 0%nat; split; vm_compute; reflexivity|vm_compute; reflexivity|vm_compute; reflexivity|discriminate]]|].
  split; [intros (nm & T & A); inversion A|]. exists []. split; [reflexivity|]. eapply ad_i32; [apply iv_true|lia].
Qed.
