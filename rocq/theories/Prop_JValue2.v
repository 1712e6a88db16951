(** C107: making and comparing values in the Java port; document values *)
From Verif Require Import PyBase Model_Text Model_Heap Model_Layer Model_Types Model_JUnits Model_JCodec Model_JEncode Model_JEdit Model_JValue Model_JValue2
  Spec_JCodec Spec_JEncode Spec_JValue Spec_JValue2 Proof_JValue4.
Local Open Scope Z_scope.

(** Values.get makes exactly these values of objects, and refuses all others with one of four exceptions. *)
Theorem C107_made : forall o m, get_value o = Ok m <-> boxed o m.
Proof. exact made_of. Qed.
Print Assumptions C107_made.
Theorem C107_refused : forall o e, get_value o = Err e -> In e [NotImplementedError; ValueError; AttributeError; TypeError].
Proof. exact made_error. Qed.
Print Assumptions C107_refused.
(** It should not matter whether nodes come as an array or as a list; it does. *)
Theorem C107_array_or_list_refuted : exists l m, get_value (OList (map (fun x : pystr * nat => ENode (fst x) (snd x)) l)) = Ok m /\ get_value (ONodes (map Some l)) = Err ValueError.
Proof. exists [(s "token", 0%nat); (s "sentence", 0%nat)]. eexists. vm_compute. split; reflexivity. Qed.
Print Assumptions C107_array_or_list_refuted.

(** Values are equal exactly when they are of one kind with one content: doubles by their bits, all NaN being one, texts by their characters. *)
Theorem C107_equal : forall v w, proper v -> proper w -> (equal_value v w = true <-> same_value v w).
Proof. exact equal_is. Qed.
Print Assumptions C107_equal.
Theorem C107_symmetric : forall v w, equal_value v w = equal_value w v.
Proof. exact equal_sym. Qed.
Print Assumptions C107_symmetric.
Theorem C107_transitive : forall u v w, equal_value u v = true -> equal_value v w = true -> equal_value u w = true.
Proof. exact equal_trans. Qed.
Print Assumptions C107_transitive.
(** Two values with one content should be equal; extensions, spans and arrays of nodes are not. *)
Theorem C107_content_refuted : exists v : jv, equal_value (Some v) (Some v) = false.
Proof. exists (JExt (s "doc") [1; 2]%N). reflexivity. Qed.
Print Assumptions C107_content_refuted.

(** Equal values have equal hashes; the hash of a text, of bytes and of an int is the polynomial that Java prescribes; ints never collide. *)
Theorem C107_hash : forall layer v w, equal_value v w = true -> hash_value layer v = hash_value layer w.
Proof. exact equal_hash. Qed.
Print Assumptions C107_hash.
Theorem C107_string_hash : forall layer x, exists h g, int_of (weigh (map Z.of_N (utf16 x))) h /\ int_of (31 + h) g /\ hash_value layer (Some (JStr x)) = Some g.
Proof. exact string_hash. Qed.
Print Assumptions C107_string_hash.
Theorem C107_bytes_hash : forall layer x, Forall (fun c => (c < 256)%N) x -> exists h, int_of (31 ^ Z.of_nat (length x) + weigh (map (fun c => to_signed (Z.of_N c)) x)) h /\ hash_value layer (Some (JBin x)) = Some h.
Proof. exact bytes_hash. Qed.
Print Assumptions C107_bytes_hash.
Theorem C107_int_hash : forall layer i k, - 2 ^ 31 <= i < 2 ^ 31 -> - 2 ^ 31 <= k < 2 ^ 31 -> hash_value layer (Some (JInt i)) = hash_value layer (Some (JInt k)) -> i = k.
Proof. exact int_hash_one. Qed.
Print Assumptions C107_int_hash.
(** The hash of a long is that of its halves, combined bit by bit; that of a double is that of the long with its bits, all NaN being one. *)
Theorem C107_long_hash : forall layer hi lo, 0 <= lo < 2 ^ 32 -> exists h g, int_of (Z.lxor hi lo) h /\ int_of (31 + h) g /\ hash_value layer (Some (JLong (hi * 2 ^ 32 + lo))) = Some g.
Proof. exact halves_hash. Qed.
Print Assumptions C107_long_hash.
Theorem C107_double_hash : forall layer b, is_double b -> (~ nan b -> hash_value layer (Some (JDouble b)) = hash_value layer (Some (JLong (Z.of_N b)))) /\
  (nan b -> hash_value layer (Some (JDouble b)) = hash_value layer (Some (JLong 0x7FF8000000000000))).
Proof. exact doubles_hash. Qed.
Print Assumptions C107_double_hash.

(** A document value made of a document: whatever is called, its bytes are those of the document with all edits made through it. *)
Theorem C107_written : forall j cs, let v := fold_left dv_call cs (dv_of_doc j) in dv_binary v = java_encode (edited j (edits_of cs)) /\ snd (dv_document v) = Ok (edited j (edits_of cs)).
Proof. exact value_written. Qed.
Print Assumptions C107_written.
(** One made of bytes: they are kept as they are until the document is asked for; from then on the bytes are those of the document, with all edits. *)
Theorem C107_bytes : forall b j cs, java_decode b = Ok j -> let v := fold_left dv_call cs (dv_of_bytes b) in
  dv_binary v = (if asked_for cs then java_encode (edited j (edits_of cs)) else Ok b) /\ snd (dv_document v) = Ok (edited j (edits_of cs)).
Proof. exact value_from_bytes. Qed.
Print Assumptions C107_bytes.
(** One made of bytes that are no document stays those bytes, and raises each time it is asked for the document or its text. *)
Theorem C107_bad_bytes : forall b e cs, java_decode b = Err e -> let v := fold_left dv_call cs (dv_of_bytes b) in dv_binary v = Ok b /\ dv_document v = (v, Err e) /\ dv_string v = (v, Err e).
Proof. exact value_bad_bytes. Qed.
Print Assumptions C107_bad_bytes.
(** The bytes of a document value, read as a document value, are the same document. *)
Theorem C107_again : forall j b, jdoc_ok j -> java_rereadable j -> dv_binary (dv_of_doc j) = Ok b -> exists k, snd (dv_document (dv_of_bytes b)) = Ok k /\ doc_again j k.
Proof. exact value_again. Qed.
Print Assumptions C107_again.
(** Its text is the main text, as that of an extension value of type doc with the same bytes; without main text both are the word null. *)
Theorem C107_text : forall d b j x, java_decode b = Ok j -> dget (jd_texts j) (s "main") = Some x ->
  string_value d (Some (JExt (s "doc") b)) = Ok (Some x) /\ snd (dv_string (dv_of_bytes b)) = Ok x /\ snd (dv_string (dv_of_doc j)) = Ok x.
Proof. exact value_text. Qed.
Print Assumptions C107_text.
Theorem C107_no_text : forall d b j, java_decode b = Ok j -> dget (jd_texts j) (s "main") = None ->
  string_value d (Some (JExt (s "doc") b)) = Ok (Some (s "null")) /\ snd (dv_string (dv_of_bytes b)) = Ok (s "null") /\ snd (dv_string (dv_of_doc j)) = Ok (s "null").
Proof. exact value_no_text. Qed.
Print Assumptions C107_no_text.

(** Cases *)
Example C107_made_case : get_value (OList [ENode (s "a") 3; ENull; ENode (s "b") 0]) = Ok (MNodes [Some (s "a", 3%nat); None; Some (s "b", 0%nat)]) /\ get_value (OList []) = Err NotImplementedError /\ get_value (ONodes []) = Err ValueError /\
  get_value (ONodes [Some (s "a", 1%nat); None]) = Err AttributeError /\ get_value (OList [ENode (s "a") 3; EOther]) = Err TypeError /\ get_value (OList [ENull; ENode (s "a") 3]) = Err NotImplementedError.
Proof. vm_compute. repeat split. Qed.
(** 0.0 and -0.0, two NaN; "Aa" and "BB" have one hash *)
Example C107_equal_case : equal_value (Some (JDouble 0)) (Some (JDouble (2 ^ 63))) = false /\ equal_value (Some (JDouble 0x7FF8000000000001)) (Some (JDouble 0xFFF0000000000001)) = true /\ nan 0x7FF8000000000001 /\ nan 0xFFF0000000000001 /\
  equal_value (Some (JInt 1)) (Some (JLong 1)) = false /\ hash_value (fun _ => 0) (Some (JStr (s "Aa"))) = Some (31 + 2112) /\ hash_value (fun _ => 0) (Some (JStr (s "BB"))) = Some (31 + 2112) /\
  hash_value (fun _ => 0) (Some (JBin [255; 1]%N)) = Some 931.
Proof. vm_compute. repeat split; discriminate. Qed.
(** Long.hashCode: -1 has the hash 0, 2^32 + 5 has 4; 1.0 has 0x3FF00000 *)
Example C107_long_hash_case : hash_value (fun _ => 0) (Some (JLong (-1))) = Some 31 /\ -1 = -1 * 2 ^ 32 + 4294967295 /\ hash_value (fun _ => 0) (Some (JLong (2 ^ 32 + 5))) = Some 35 /\
  hash_value (fun _ => 0) (Some (JDouble 0x3FF0000000000000)) = Some (31 + 0x3FF00000) /\ ~ nan 0x3FF0000000000000.
Proof. repeat (split; [vm_compute; reflexivity|]). intros [H _]. vm_compute in H. discriminate H. Qed.
Definition a_doc : jdoc := mkJDoc [(s "id", JStr (s "x"))] [(s "main", s "ab cde f")] [].
Definition doc_bytes (j : jdoc) : list N := match java_encode j with Ok b => b | Err _ => [] end.
Example C107_doc_case : java_encode a_doc = Ok (doc_bytes a_doc) /\ java_decode (doc_bytes a_doc) = Ok a_doc /\ dv_binary (dv_call (dv_of_bytes (doc_bytes a_doc ++ [0]%N)) DVBinary) = Ok (doc_bytes a_doc ++ [0]%N) /\
  dv_binary (dv_call (dv_of_bytes (doc_bytes a_doc ++ [0]%N)) DVString) = Ok (doc_bytes a_doc) /\ snd (dv_string (dv_of_bytes (doc_bytes a_doc))) = Ok (s "ab cde f") /\ java_decode [1; 2]%N = Err OutOfData /\
  dv_binary (dv_call (dv_of_bytes (doc_bytes (mkJDoc [] (jd_texts a_doc) []))) (DVEdit (SetProp (s "id") (JStr (s "x"))))) = Ok (doc_bytes a_doc).
Proof. vm_compute. repeat split. Qed.
