(** Documents that one of the ports has written: the bytes, the number of layers, what the properties are and what the schema is. *)
From Verif Require Import PyBase Model_Heap Model_Layer Model_Types Model_Msgpack Model_Document Model_Codec Model_JCodec Model_JEncode Model_JDocument
  Spec_Document Spec_Codec Spec_JCodec Spec_JEncode.
Local Open Scope Z_scope.

Inductive written : list N -> nat -> (dict jv -> Prop) -> (dict (dict jdtype) -> Prop) -> Prop :=
| written_python h d ex tv h1 bytes : doc_ok h d -> msgpack_encode h d ex tv = (h1, Ok bytes) -> java_readable h d -> zlen bytes < 2147483648 ->
    written bytes (length (d_layers d))
      (fun js => exists ps, d_props d = MMap ps /\ Forall2 (fun ko kj => fst kj = fst ko /\ java_prop (snd ko) (snd kj)) ps js)
      (fun sch => Forall2 (fun kl kf => fst kf = fst kl /\ Forall2 (fun ft fj => fst fj = fst ft /\ java_type (snd ft) (snd fj)) (l_fields (h_layer h (snd kl))) (snd kf)) (d_layers d) sch)
| written_java j bytes : jdoc_ok j -> java_encode j = Ok bytes ->
    written bytes (length (jd_layers j))
      (fun js => Forall2 (again prop_again) (jd_props j) js)
      (fun sch => Forall2 (again (fun l fs => Forall2 (again type_again) (fst l) fs)) (jd_layers j) sch).
(** one of four *)
Definition part (c : compartment) (p sc t l : list N) : list N :=
  match c with CProps => p | CSchema => sc | CTexts => t | CLayers => l end.
