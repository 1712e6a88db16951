(** Property C103: whatever bytes the Java port reads, if it makes a document of them then the document holds together; and it is written and
    read again unchanged, if its types name what exists, its spans run forward, and it has no bytes and no long that an int could hold. *)
From Verif Require Import PyBase PyBaseFacts Model_Text Model_Heap Model_Layer Model_Types Model_Msgpack Model_Document Model_Codec Model_JUnits Model_JText Model_JCodec Model_JEncode
  Spec_Layer Spec_Types Spec_Msgpack Spec_Document Spec_Codec Spec_JUnits Spec_JCodec Spec_JEncode Spec_JDecode Proof_Layer4
  Proof_JDecode Proof_JDecode3 Proof_JDecode4.
Local Open Scope Z_scope.

(** The names are unique, every declared type is a known one with the arguments it needs, every value fits the type of its field, every node
    and position that is referred to exists. *)
Theorem C103_decoded : forall bs j, bytes bs -> java_decode bs = Ok j -> decoded_ok j.
Proof. exact decoded. Qed.
Print Assumptions C103_decoded.

(** Then the document satisfies what C99 asks of a document that is written, but for two things that the decoder does not look at. *)
Theorem C103_document : forall bs j, bytes bs -> java_decode bs = Ok j -> names_exist j -> each_value forward j -> jdoc_ok j.
Proof. exact decoded_document. Qed.
Print Assumptions C103_document.

(** Reading, writing and reading is the same as reading, whatever follows in the buffer. *)
Theorem C103_again : forall bs j bytes' rest, bytes bs -> java_decode bs = Ok j -> names_exist j -> each_value forward j -> each_value not_bytes j -> no_short_long j ->
  java_encode j = Ok bytes' -> exists k, java_decode (bytes' ++ rest) = Ok k /\ same_document j k.
Proof. exact decoded_again. Qed.
Print Assumptions C103_again.

(** And Python reads what is written. *)
Theorem C103_python : forall bs j bytes' rest h0, bytes bs -> java_decode bs = Ok j -> names_exist j -> each_value forward j -> no_extension j ->
  java_encode j = Ok bytes' -> wf h0 -> exists h2 d, msgpack_decode h0 (bytes' ++ rest) = (h2, Ok d) /\ python_doc j h2 d.
Proof. exact decoded_python. Qed.
Print Assumptions C103_python.

(** A double among the arguments is rounded once: to the nearest, of two the even one. *)
Theorem C103_rounded : (forall b, (b < 18446744073709551616)%N -> to_float (to_float b) = to_float b) /\
  forall m k, 0 <= k -> nearest_even m k (half_even m k).
Proof. exact rounded. Qed.
Print Assumptions C103_rounded.

(** A file with a property, a text "abc" in two parts, and one node with a span from a to b (numbers of parts) *)
Definition word_file (a b : N) : list N :=
  [68; 77; 95; 49; 4; 129; 161; 110; 5; 145; 161; 119; 1; 164; 116; 101; 120; 116; 195; 164; 115; 112; 97; 110; 129; 167; 99; 111; 110; 116;
   101; 120; 116; 164; 109; 97; 105; 110; 12; 129; 164; 109; 97; 105; 110; 146; 162; 97; 98; 161; 99; 5; 1; 194; 146; a; b]%N.
Definition span_main : jdtype := mkJT (JT TSpan) [(s "context", JStr (s "main"))].
Definition words (a b : Z) : jdoc := mkJDoc [(s "n", JInt 5)] [(s "main", s "abc")] [(s "w", ([(s "text", span_main)], [[(s "text", JSpan (s "main") a b)]]))].
Lemma word_bytes : bytes (word_file 0 1).
Proof. unfold bytes, word_file. repeat constructor. Qed.
Lemma words_named a b : names_exist (words a b).
Proof.
  intros k fs rows f t [[= <- <- <-]|[]] [[= <- <-]|[]]. split.
  - intros c _ Hc. vm_compute in Hc. injection Hc as <-. left. reflexivity.
  - intros x Hx. exfalso. cbn in Hx. intuition discriminate.
Qed.
Lemma words_values (P : jv -> Prop) a b : P (JSpan (s "main") a b) -> each_value P (words a b).
Proof.
  intros H k fs rows row f v [[= <- <- <-]|[]] [<-|[]] Hv. apply dget_In in Hv. destruct Hv as [[= <- <-]|[]]. exact H.
Qed.
Lemma words_short a b : no_short_long (words a b).
Proof.
  split; [intros k v [[= <- <-]|[]] i; discriminate|]. intros k fs rows f t x v [[= <- <- <-]|[]] [[= <- <-]|[]] [[= <- <-]|[]] i. discriminate.
Qed.
Example C103_case : bytes (word_file 0 1) /\ java_decode (word_file 0 1) = Ok (words 0 2) /\ names_exist (words 0 2) /\ each_value forward (words 0 2) /\
  each_value not_bytes (words 0 2) /\ no_short_long (words 0 2) /\ java_encode (words 0 2) = Ok (word_file 0 1).
Proof.
  split; [exact word_bytes|]. split; [vm_compute; reflexivity|]. split; [apply words_named|]. split; [apply words_values; intros c a b [= <- <- <-]; lia|].
  split; [apply words_values; intros x; discriminate|]. split; [apply words_short|]. vm_compute. reflexivity.
Qed.

(** What the decoder does not look at: the order of the ends of a span; ... *)
Theorem C103_forward_refuted : exists bs j, bytes bs /\ java_decode bs = Ok j /\ ~ each_value forward j.
Proof.
  exists (word_file 1 0), (words 2 0). split; [unfold bytes, word_file; repeat constructor|]. split; [vm_compute; reflexivity|]. intros H.
  assert (X : 2 <= 0); [|lia]. refine (H (s "w") _ _ [(s "text", JSpan (s "main") 2 0)] (s "text") _ (or_introl eq_refl) (or_introl eq_refl) eq_refl (s "main") 2 0 eq_refl).
Qed.
Print Assumptions C103_forward_refuted.

(** ... whether there is a text of the name that a type gives, so that the document that was read cannot be written; ... *)
Theorem C103_named_refuted : exists bs j, bytes bs /\ java_decode bs = Ok j /\ java_encode j = Err DataError.
Proof.
  exists [68; 77; 95; 49; 1; 128; 145; 161; 119; 1; 164; 116; 101; 120; 116; 195; 164; 115; 112; 97; 110; 129; 167; 99; 111; 110; 116; 101; 120; 116;
    164; 109; 97; 105; 110; 1; 128; 5; 1; 194; 146; 192; 192]%N.
  eexists. split; [unfold bytes; repeat constructor|]. split; [vm_compute; reflexivity|]. vm_compute. reflexivity.
Qed.
Print Assumptions C103_named_refuted.

(** ... and the size of a number: of 2^64 - 1 the lower bits are taken, which is -1 as a long, and this comes back as an int. *)
Theorem C103_number_refuted : exists bs j bs' k, bytes bs /\ java_decode bs = Ok j /\ java_encode j = Ok bs' /\ java_decode bs' = Ok k /\
  jd_props j = [(s "n", JLong (-1))] /\ jd_props k = [(s "n", JInt (-1))].
Proof.
  exists [68; 77; 95; 49; 12; 129; 161; 110; 207; 255; 255; 255; 255; 255; 255; 255; 255; 144; 1; 128]%N.
  exists (mkJDoc [(s "n", JLong (-1))] [] []), [68; 77; 95; 49; 4; 129; 161; 110; 255; 144; 1; 128]%N, (mkJDoc [(s "n", JInt (-1))] [] []).
  split; [unfold bytes; repeat constructor|]. repeat split; vm_compute; reflexivity.
Qed.
Print Assumptions C103_number_refuted.
