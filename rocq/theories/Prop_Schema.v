(** C72: the printed schema. *)
From Verif Require Import PyBase Model_Heap Model_Layer Model_Types Model_Msgpack Model_Document Model_Schema Spec_Layer Spec_History Spec_Schema Proof_Schema.
Local Open Scope Z_scope.

(** Two documents print the same if and only if they have the same layers with the same fields, in order, of the same types with the same options;
    neither the order of the layers nor the nodes matter.  For names and options that can be told apart in print. *)
Theorem C72_same : forall vstr h d h' d', printable vstr h d -> printable vstr h' d' ->
  printschema vstr h d = printschema vstr h' d' <-> forall k, schema_of vstr h d k = schema_of vstr h' d' k.
Proof. exact same_print. Qed.
Print Assumptions C72_same.
(** It succeeds if and only if all types are known; otherwise KeyError. *)
Theorem C72_ends : forall vstr h d,
  (snd (printschema vstr h d) = Ok tt <-> forall k l, In (k, l) (d_layers d) -> forall f t, In (f, t) (l_fields (h_layer h l)) -> dt_name t <> TUnknown) /\
  (snd (printschema vstr h d) = Ok tt \/ snd (printschema vstr h d) = Err KeyError).
Proof. exact print_end. Qed.
Print Assumptions C72_ends.

Definition opt_str (v : value) : pystr := match v with VStr x => x | VNone => s "None" | _ => s "?" end.
Definition schema_heap (f : pystr) : heap := exec_all Z.leb empty_heap
  [OLayer (s "token") [(s "pos", T_string VNone); (s "text", T_span (s "main"))]; OLayer (s "phrase") [(f, T_noderef (s "token"))]].
Definition schema_doc : doc := mkDoc (MMap []) [(s "main", s "one two")] [(s "token", 0%nat); (s "phrase", 1%nat)].
Definition nl : pystr := [10%N].
Example C72_case : printable opt_str (schema_heap (s "head")) schema_doc /\ printschema opt_str (schema_heap (s "head")) schema_doc =
  (s "[phrase]" ++ nl ++ s " * head : noderef[layer=token]" ++ nl ++ nl ++ s "[token]" ++ nl ++ s " * pos  : str" ++ nl ++ s " * text : span[context=main]" ++ nl ++ nl, Ok tt).
Proof.
  split; [|vm_compute; reflexivity]. split; [vm_compute; repeat constructor; simpl; intuition discriminate|].
  intros k l [E|[E|[]]]; injection E as <- <-; (split; [vm_compute; intuition discriminate|]); intros f t I; vm_compute in I; repeat destruct I as [I|I]; try contradiction; injection I as <- <-;
    (split; [vm_compute; intuition discriminate|]); (split; [vm_compute; intuition discriminate|]); (split; [discriminate|]); intros o v J; vm_compute in J; repeat destruct J as [J|J]; try contradiction;
    injection J as <- <-; vm_compute; intuition discriminate.
Qed.
(** A blank at the end of a field name cannot be seen. *)
Definition blank_heap (f : pystr) : heap := exec_all Z.leb empty_heap [OLayer (s "token") [(s "pos", T_string VNone); (f, T_bool VNone)]].
Definition blank_doc : doc := mkDoc (MMap []) [] [(s "token", 0%nat)].
Theorem C72_blank_refuted : exists vstr h d h' d', printschema vstr h d = printschema vstr h' d' /\ snd (printschema vstr h d) = Ok tt /\ exists k, schema_of vstr h d k <> schema_of vstr h' d' k.
Proof. exists opt_str, (blank_heap (s "id")), blank_doc, (blank_heap (s "id ")), blank_doc. split; [vm_compute; reflexivity|]. split; [vm_compute; reflexivity|]. exists (s "token"). vm_compute. discriminate. Qed.
Print Assumptions C72_blank_refuted.
