(** Property C106: values of the Java port seen as text, numbers, truth values, bytes and nodes. *)
From Verif Require Import PyBase Model_Text Model_Heap Model_Layer Model_Types Model_Codec Model_Printout Model_JUnits Model_JText Model_JCodec Model_JValue Spec_JValue Proof_JValue3.
Local Open Scope Z_scope.

(** A number as text and back. *)
Theorem C106_text_of_number : forall j i, (- 2 ^ 31 <= i < 2 ^ 31 -> exists x, string_value j (Some (JInt i)) = Ok (Some x) /\ int_value j (Some (JStr x)) = Ok i) /\
  (- 2 ^ 63 <= i < 2 ^ 63 -> exists x, string_value j (Some (JLong i)) = Ok (Some x) /\ long_value j (Some (JStr x)) = Ok i).
Proof. exact text_of_number. Qed.
Print Assumptions C106_text_of_number.
(** A text is a number exactly if it is a numeral for one in range. *)
Theorem C106_number_of_text : forall j x v, (int_value j (Some (JStr x)) = Ok v <-> numeral (utf16 x) v /\ - 2 ^ 31 <= v < 2 ^ 31) /\
  (long_value j (Some (JStr x)) = Ok v <-> numeral (utf16 x) v /\ - 2 ^ 63 <= v < 2 ^ 63) /\
  (forall e, int_value j (Some (JStr x)) = Err e \/ long_value j (Some (JStr x)) = Err e -> e = ValueError).
Proof. exact number_of_text. Qed.
Print Assumptions C106_number_of_text.
(** An int stays what it is as long and as double, and comes back. *)
Theorem C106_int : forall j i, - 2 ^ 31 <= i < 2 ^ 31 -> exists d, int_value j (Some (JInt i)) = Ok i /\ long_value j (Some (JInt i)) = Ok i /\ double_value j (Some (JInt i)) = Ok d /\ in_units d = i * unit1 /\
  int_value j (Some (JDouble d)) = Ok i /\ long_value j (Some (JDouble d)) = Ok i /\ int_value j (Some (JLong i)) = Ok i.
Proof. exact numbers. Qed.
Print Assumptions C106_int.
(** A long as int keeps its last 32 bits; as double it is the nearest one, itself up to 2^53. *)
Theorem C106_long : forall j i, - 2 ^ 63 <= i < 2 ^ 63 -> exists n d, long_value j (Some (JLong i)) = Ok i /\ int_value j (Some (JLong i)) = Ok n /\ - 2 ^ 31 <= n < 2 ^ 31 /\ (exists k, n = i + k * 2 ^ 32) /\
  double_value j (Some (JLong i)) = Ok d /\ nearest d i /\ (Z.abs i <= 2 ^ 53 -> in_units d = i * unit1 /\ long_value j (Some (JDouble d)) = Ok i).
Proof. exact longs. Qed.
Print Assumptions C106_long.
(** A double as int or long: what follows the point goes, and numbers out of range become the last ones in range; not-a-number is zero. *)
Theorem C106_double : forall j b, is_double b ->
  (finite b -> exists t, truncated b t /\ int_value j (Some (JDouble b)) = Ok (Z.max (- 2 ^ 31) (Z.min (2 ^ 31 - 1) t)) /\ long_value j (Some (JDouble b)) = Ok (Z.max (- 2 ^ 63) (Z.min (2 ^ 63 - 1) t))) /\
  (d_exp b = 2047 -> d_frac b = 0 -> int_value j (Some (JDouble b)) = Ok (if d_neg b then - 2 ^ 31 else 2 ^ 31 - 1) /\ long_value j (Some (JDouble b)) = Ok (if d_neg b then - 2 ^ 63 else 2 ^ 63 - 1)) /\
  (d_exp b = 2047 -> d_frac b <> 0 -> int_value j (Some (JDouble b)) = Ok 0 /\ long_value j (Some (JDouble b)) = Ok 0).
Proof. exact doubles. Qed.
Print Assumptions C106_double.

(** Truth values are themselves; a text is true if it reads so in capitals or not. *)
Theorem C106_truth : forall j b x, bool_value j (Some (JBool b)) = Ok b /\ (bool_value j (Some (JStr x)) = Ok true <-> Forall2 same_letter (utf16 x) (s "true")) /\ exists t, bool_value j (Some (JStr x)) = Ok t.
Proof. exact truth. Qed.
Print Assumptions C106_truth.
(** Ints and longs are true unless zero. Doubles are the other way round: true for 0.0, false for every other whole number. *)
Theorem C106_truth_of_double_refuted : forall j i, bool_value j (Some (JInt i)) = Ok (negb (i =? 0)) /\ bool_value j (Some (JLong i)) = Ok (negb (i =? 0)) /\
  (Z.abs i <= 2 ^ 53 -> bool_value j (Some (JDouble (to_double i))) = Ok (i =? 0)).
Proof. exact truth_numbers. Qed.
Print Assumptions C106_truth_of_double_refuted.
Theorem C106_truth_of_double : forall j b, is_double b -> (bool_value j (Some (JDouble b)) = Ok true <-> finite b /\ Z.abs (in_units b) <= in_units eps).
Proof. exact truth_double. Qed.
Print Assumptions C106_truth_of_double.
(** The text of a double is null. *)
Theorem C106_text_of_double_refuted : exists j b, string_value j (Some (JDouble b)) = Ok None.
Proof. exists (mkJDoc [] [] []), 0%N. reflexivity. Qed.
Print Assumptions C106_text_of_double_refuted.

(** Bytes as Base64 text. *)
Theorem C106_bytes : forall j x, bytes8 x -> exists y, string_value j (Some (JBin x)) = Ok (Some y) /\ unbase64 y = Some x /\ zlen y = 4 * ((zlen x + 2) / 3) /\ binary_value (Some (JBin x)) = Ok x.
Proof. exact bytes_told. Qed.
Print Assumptions C106_bytes.
(** The text of an extension tells its type and its bytes, that of a node its layer and position, that of an array all its nodes. *)
Theorem C106_extension : forall j t x t' x' y, bytes8 x -> bytes8 x' -> t <> s "doc" -> t' <> s "doc" ->
  string_value j (Some (JExt t x)) = Ok (Some y) -> string_value j (Some (JExt t' x')) = Ok (Some y) -> utf16 t = utf16 t' /\ x = x'.
Proof. exact extension_told. Qed.
Print Assumptions C106_extension.
Theorem C106_node : forall j l i l' i' x, string_value j (Some (JNode l i)) = Ok (Some x) -> string_value j (Some (JNode l' i')) = Ok (Some x) -> utf16 l = utf16 l' /\ i = i'.
Proof. exact node_told. Qed.
Print Assumptions C106_node.
Theorem C106_nodes : forall j l is l' is' x, string_value j (Some (JNodes l is)) = Ok (Some x) -> string_value j (Some (JNodes l' is')) = Ok (Some x) -> is = is' /\ (is <> [] -> utf16 l = utf16 l').
Proof. exact nodes_told. Qed.
Print Assumptions C106_nodes.
(** The text of a span is the part of its text between its ends; that of a span of nodes, if the nodes have spans in the field text, goes from the
    start of the first to the end of the last. *)
Theorem C106_span : forall j t a b x w, dget (jd_texts j) t = Some x -> (string_value j (Some (JSpan t a b)) = Ok (Some w) <-> exists u v, x = u ++ w ++ v /\ zlen u = a /\ zlen (u ++ w) = b).
Proof. exact text_of_span. Qed.
Print Assumptions C106_span.
Theorem C106_nodespan : forall j l fs rows ty p q ra rb t t' a b a' b' x w, dget (jd_layers j) l = Some (fs, rows) -> nth_error rows p = Some ra -> nth_error rows q = Some rb ->
  dget ra (s "text") = Some (JSpan t a b) -> dget rb (s "text") = Some (JSpan t' a' b') -> dget fs (s "text") = Some ty -> ty_name ty = JT TSpan -> dget (jd_texts j) t = Some x ->
  (string_value j (Some (JNodeSpan l p q)) = Ok (Some w) <-> exists u v, x = u ++ w ++ v /\ zlen u = a /\ zlen (u ++ w) = b').
Proof. exact text_of_nodespan. Qed.
Print Assumptions C106_nodespan.

(** Nodes: an array of one node is a node; a span of nodes is all nodes between its ends, in order. *)
Theorem C106_one_node : forall l i, node_value (Some (JNode l i)) = Ok (l, i) /\ node_value (Some (JNodes l [i])) = Ok (l, i) /\
  (forall is, length is <> 1%nat -> node_value (Some (JNodes l is)) = Err NotImplementedError).
Proof. exact one_node. Qed.
Print Assumptions C106_one_node.
Theorem C106_between : forall l a b, (a <= b)%nat -> exists ns, nodes_value (Some (JNodeSpan l a b)) = Ok ns /\ (forall m i, In (m, i) ns <-> m = l /\ (a <= i <= b)%nat) /\
  length ns = (b - a + 1)%nat /\ forall k x, nth_error ns k = Some x -> snd x = (a + k)%nat.
Proof. exact span_of_nodes. Qed.
Print Assumptions C106_between.
(** A field that a node does not have is empty, zero and false, and no node and no span. *)
Theorem C106_missing : forall j row f, ~ In f (map fst row) -> let v := field_value row f in
  string_value j v = Ok (Some []) /\ int_value j v = Ok 0 /\ long_value j v = Ok 0 /\ double_value j v = Ok 0%N /\ bool_value j v = Ok false /\ binary_value v = Ok [] /\ nodes_value v = Ok [] /\
  node_value v = Err AttributeError /\ span_value v = Err AttributeError /\ nodespan_value v = Err AttributeError.
Proof. exact missing. Qed.
Print Assumptions C106_missing.

(** Bytes, spans and spans of nodes are what they are and nothing else is one; of other values they are not supported. *)
Theorem C106_own_bytes : forall v x, binary_value (Some v) = Ok x <-> v = JBin x \/ exists y, v = JExt y x.
Proof. exact own_bytes. Qed.
Print Assumptions C106_own_bytes.
Theorem C106_own_span : forall v t a b, span_value (Some v) = Ok (t, a, b) <-> v = JSpan t a b.
Proof. exact own_span. Qed.
Print Assumptions C106_own_span.
Theorem C106_own_nodespan : forall v l a b, nodespan_value (Some v) = Ok (l, a, b) <-> v = JNodeSpan l a b.
Proof. exact own_nodespan. Qed.
Print Assumptions C106_own_nodespan.
Theorem C106_own_kind : forall v e, binary_value (Some v) = Err e \/ span_value (Some v) = Err e \/ nodespan_value (Some v) = Err e \/ node_value (Some v) = Err e -> e = NotImplementedError.
Proof. exact own_kind. Qed.
Print Assumptions C106_own_kind.
(** Truth values are 1 and 0; numbers and arrays of nodes are themselves. *)
Theorem C106_own_numbers : forall j, (forall b : bool, int_value j (Some (JBool b)) = Ok (if b then 1 else 0) /\ long_value j (Some (JBool b)) = Ok (if b then 1 else 0) /\
    exists d, double_value j (Some (JBool b)) = Ok d /\ in_units d = (if b then unit1 else 0)) /\
  (forall d, double_value j (Some (JDouble d)) = Ok d) /\ (forall i, int_value j (Some (JInt i)) = Ok i /\ long_value j (Some (JInt i)) = Ok i /\ long_value j (Some (JLong i)) = Ok i) /\
  (forall l is, nodes_value (Some (JNodes l is)) = Ok (map (pair l) is)).
Proof. exact own_numbers. Qed.
Print Assumptions C106_own_numbers.

(** Cases *)
Definition no_doc : jdoc := mkJDoc [] [] [].
Example C106_numerals : int_value no_doc (Some (JStr (s "-2147483648"))) = Ok (- 2 ^ 31) /\ int_value no_doc (Some (JStr (s "2147483648"))) = Err ValueError /\
  int_value no_doc (Some (JStr (s "+007"))) = Ok 7 /\ int_value no_doc (Some (JStr (s "-"))) = Err ValueError /\ int_value no_doc (Some (JStr (s " 1"))) = Err ValueError /\
  int_value no_doc (Some (JStr [0x664; 0xFF12]%N)) = Ok 42 /\ long_value no_doc (Some (JStr (s "9223372036854775807"))) = Ok (2 ^ 63 - 1) /\
  string_value no_doc (Some (JInt (-42))) = Ok (Some (s "-42")) /\ int_value no_doc (Some (JLong (2 ^ 32 + 5))) = Ok 5.
Proof. vm_compute. repeat split. Qed.
(** 2^53 + 1 as double is 2^53, 2^53 + 3 is 2^53 + 4; pi as int; 1e300 as long; 1e-12 is the nearest double to EPS *)
Example C106_doubles : to_double (2 ^ 53 + 1) = to_double (2 ^ 53) /\ to_double (2 ^ 53 + 3) = to_double (2 ^ 53 + 4) /\ to_double (-3) = 0xC008000000000000%N /\
  int_value no_doc (Some (JDouble 0x400921FB54442D18)) = Ok 3 /\ long_value no_doc (Some (JDouble 0x7E37E43C8800759C)) = Ok (2 ^ 63 - 1) /\ int_value no_doc (Some (JDouble 0xC0AF3FE666666666)) = Ok (-3999) /\
  2 * Z.abs (10 ^ 12 * in_units eps - unit1) <= 10 ^ 12 * (in_units (eps + 1) - in_units eps).
Proof. vm_compute. repeat split; discriminate. Qed.
Example C106_bool : bool_value no_doc (Some (JDouble 0)) = Ok true /\ bool_value no_doc (Some (JDouble (to_double 1))) = Ok false /\ bool_value no_doc (Some (JStr (s "TrUe"))) = Ok true /\ bool_value no_doc (Some (JStr (s "1"))) = Ok false.
Proof. vm_compute. repeat split. Qed.
Definition two_words : jdoc :=
  mkJDoc [] [(s "main", s "ab cde f")] [(s "tok", ([(s "text", mkJT (JT TSpan) [(s "context", JStr (s "main"))])], [[(s "text", JSpan (s "main") 0 2)]; [(s "text", JSpan (s "main") 3 6)]]))].
Example C106_texts : string_value two_words (Some (JNodeSpan (s "tok") 0 1)) = Ok (Some (s "ab cde")) /\ string_value two_words (Some (JNodes (s "tok") [0; 1]%nat)) = Ok (Some (s "tok[0,1]")) /\
  string_value two_words (Some (JNode (s "tok") 1)) = Ok (Some (s "tok#1")) /\ string_value two_words (Some (JBin [77; 97; 110; 1]%N)) = Ok (Some (s "TWFuAQ==")) /\
  string_value two_words (Some (JExt (s "a:b") [255]%N)) = Ok (Some (s "a:b:/w==")).
Proof. vm_compute. repeat split. Qed.
