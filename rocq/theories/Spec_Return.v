(** Documents of the Java port that pass through the Python port. *)
From Verif Require Import PyBase Model_Msgpack Model_Types Model_JUnits Model_JCodec Spec_JCodec Spec_JEncode.
Local Open Scope Z_scope.

(** the doubles among the arguments of types are floats (C103: so they are in every document that was read) *)
Definition single_args (j : jdoc) : Prop := forall k fs rows f t o b,
  In (k, (fs, rows)) (jd_layers j) -> In (f, t) fs -> In (o, JDouble b) (ty_args t) -> is_single b.
Definition no_empty_text (j : jdoc) : Prop := forall c u, In (c, u) (jd_texts j) -> u <> [].
