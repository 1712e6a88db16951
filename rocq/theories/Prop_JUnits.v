(** C97: texts in UTF-16 units (Java) and in code points (Python). *)
From Verif Require Import PyBase Model_Msgpack Spec_Msgpack Model_Text Model_JText Spec_JText Model_JUnits Spec_JUnits Proof_JUnits.
Local Open Scope Z_scope.

(** Any sequence of calls on a text of the Java port, with positions moved to units, is answered as with
    positions in code points: the parts are the same strings and the numbers of the spans are the same. *)
Theorem C97_numbers : forall name x ops,
  jt_run (jt_new name (utf16 x)) [] (map (op_units x) ops) = map (answer_units x) (range_run x [] ops).
Proof. exact java_run_units. Qed.
Print Assumptions C97_numbers.

(** and those parts and numbers are the ones the Python port computes for the same text and positions *)
Theorem C97_python : forall x cuts, x <> [] ->
  cut_text x cuts = text_compile x (sorted_offsets x cuts) /\
  (forall p, In p cuts -> offset_id (sorted_offsets x cuts) p = Some (rank (sorted_offsets x cuts) p)).
Proof. exact python_same. Qed.
Print Assumptions C97_python.

(** Both ports write the same bytes for the same string. *)
Theorem C97_bytes : forall x, Forall scalar x -> java_utf8 (utf16 x) = utf8_encode x.
Proof. exact java_utf8_same. Qed.
Print Assumptions C97_bytes.

(** The Java port reads parts written by the Python port as the same text, with the same span strings. *)
Theorem C97_read : forall x bs, utf8_encode x = Ok bs -> java_unutf8 bs = Ok (utf16 x).
Proof. exact java_read_same. Qed.
Print Assumptions C97_read.
Theorem C97_read_text : forall name (xs : list (list N)), let (t, os) := jt_read name (map utf16 xs) in
  jt_text t = utf16 (List.concat xs) /\ length os = Datatypes.S (length xs) /\
  (forall i o, nth_error os i = Some o -> o_pos (jt_obj t o) = upos (List.concat xs) (zlen (List.concat (firstn i xs)))) /\
  (forall i j a b, nth_error os i = Some a -> nth_error os j = Some b -> (i <= j)%nat ->
     js_string t (a, b) = Ok (utf16 (List.concat (firstn (j - i) (skipn i xs))))).
Proof. exact read_units. Qed.
Print Assumptions C97_read_text.

(** What the Java port writes it can always read; it reads the same string exactly if surrogates come in
    pairs. *)
Theorem C97_pairs : forall u, Forall (fun c => (c < 0x10000)%N) u ->
  (exists bs, java_utf8 u = Ok bs /\ java_unutf8 bs = Ok (utf16 (from_units u))) /\
  (utf16 (from_units u) = u <-> paired u).
Proof. exact written_back. Qed.
Print Assumptions C97_pairs.

(** a text with a character outside the basic plane: U+1F600 between two letters *)
Definition smile : pystr := [97; 0x1F600; 98]%N.
Example C97_numbers_case :
  utf16 smile = [97; 0xD83D; 0xDE00; 98]%N /\ map (op_units smile) [Make 1 2; Make 3 3; Save] = [Make 1 3; Make 4 4; Save] /\
  jt_run (jt_new (s "main") (utf16 smile)) [] [Make 1 3; Make 4 4; Save] =
    [Made (Ok (1, 3)); Made (Err ValueError); Saved (Ok ([[97]; [0xD83D; 0xDE00]; [98]]%N, [(1, 2)]))] /\
  java_utf8 (utf16 smile) = Ok [97; 0xF0; 0x9F; 0x98; 0x80; 98]%N.
Proof. vm_compute. repeat split; reflexivity. Qed.
Example C97_bytes_case : Forall scalar smile.
Proof. unfold smile, scalar. repeat constructor; lia. Qed.
Example C97_pairs_case : java_utf8 [0xD83D; 97]%N = Ok [63; 97]%N /\ paired (utf16 smile).
Proof. split; [reflexivity|]. exists smile. split; [exact C97_bytes_case|reflexivity]. Qed.

(** A span that ends inside a pair is accepted by the Java port; the document written then holds question
    marks in the place of the character, for both ports. *)
Theorem C97_split_refuted : exists x a b parts ids bss, Forall scalar x /\
  jt_run (jt_new (s "main") (utf16 x)) [] [Make a b; Save] = [Made (Ok (a, b)); Saved (Ok (parts, ids))] /\
  mapM java_utf8 parts = Ok bss /\ mapM java_unutf8 bss = Ok [[97; 63]; [63; 98]]%N /\ mapM utf8_decode bss = Ok [[97; 63]; [63; 98]]%N.
Proof.
  exists smile, 0, 2, [[97; 0xD83D]; [0xDE00; 98]]%N, [(0, 1)], [[97; 63]; [63; 98]]%N. split; [exact C97_bytes_case|].
  vm_compute. repeat split; reflexivity.
Qed.
Print Assumptions C97_split_refuted.

(** The empty text is written as one empty part by the Java port and as no part by the Python port; either
    is read as the empty text. *)
Theorem C97_empty : cut_text [] [] = [[]] /\ text_compile [] (sorted_offsets [] []) = [] /\
  (forall name, jt_text (fst (jt_read name [[]])) = [] /\ jt_text (fst (jt_read name [])) = []) /\ join_segs [[]] = [] /\ join_segs [] = [].
Proof. repeat split. Qed.
Print Assumptions C97_empty.
