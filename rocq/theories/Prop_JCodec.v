(** Property C98: the Java port reads what the Python port writes. *)
From Verif Require Import PyBase PyBaseFacts Model_Text Model_Heap Model_Layer Model_Types Model_Msgpack Model_Document Model_Codec Model_JUnits Model_JStream Model_JCodec
  Spec_Layer Spec_History Spec_Types Spec_Msgpack Spec_Document Spec_Codec Spec_JUnits Spec_JCodec Proof_Layer4 Proof_Types Proof_Codec6 Proof_JCodec2 Model_JEncode Spec_Names Proof_Names Prop_Document Prop_Codec.
Local Open Scope Z_scope.

(** Of the documents that the Python port has encoded (into fewer than 2^31 bytes), with any bytes following,
    the Java port reads exactly the readable ones as the same document. *)
Theorem C98_java_reads : forall h d ex tv h1 bytes rest, doc_ok h d -> msgpack_encode h d ex tv = (h1, Ok bytes) -> zlen bytes < 2147483648 ->
  (java_readable h d <-> exists j, java_decode (bytes ++ rest) = Ok j /\ java_doc h d j).
Proof. exact java_reads_exactly. Qed.
Print Assumptions C98_java_reads.
(** The names of types in a file: both ports write and read this table; Python raises KeyError for any other name, Java has none (null). *)
Theorem C98_names : (forall t x, type_string t = Ok x <-> In (JT t, x) wire_names) /\ (forall t x, string_type x = Ok t <-> In (JT t, x) wire_names) /\
  (forall x e, string_type x = Err e <-> e = KeyError /\ forall t, ~ In (JT t, x) wire_names) /\
  (forall t x, jname_string t = Ok x <-> In (t, x) wire_names) /\ (forall x t, jname_from x = t <-> In (t, x) wire_names \/ t = JTMissing /\ ~ In x (map snd wire_names)).
Proof. exact (conj python_names (conj string_type_names (conj string_type_none (conj names_of names_read)))). Qed.
Print Assumptions C98_names.
Example C98_names_case : In (JT TNodeRefMany, s "noderef_array") wire_names /\ string_type (s "nil") = Err KeyError /\ jname_from (s "nil") = JTNil /\ ~ In (s "int") (map snd wire_names).
Proof. split; [vm_compute; tauto|]. split; [reflexivity|]. split; [reflexivity|]. vm_compute. intros H. repeat (destruct H as [H|H]; [discriminate|]). exact H. Qed.

Lemma sample_readable : java_readable doc_heap sample_doc.
Proof.
  split.
  - eexists. split; [reflexivity|]. intros k o [[= <- <-]|[]]. exists (JInt 1). constructor. unfold int_range. lia.
  - intros k f t o v Hd Hov. apply sample_type in Hd. destruct Hd as [Ht _]. simpl in Ht.
    repeat (destruct Ht as [<-|Ht]; [vm_compute in Hov; repeat (destruct Hov as [[= <- <-]|Hov]; [eexists; constructor; unfold int_range; lia|]); destruct Hov|]). destruct Ht.
  - intros k l [[= <- <-]|[[= <- <-]|[]]]; vm_compute; reflexivity.
  - intros k l n f t i Hn Ht Et Hv. pose proof (sample_value k l n f _ t Hn Hv Ht) as W; clear Hn Hv Ht; destruct W as [[E ->]|[[E ->]|[[E ->]|[[E ->]|[[E ->]|[[E ->]|[E ->]]]]]]]; try discriminate E. injection E as ->. unfold int_range. lia.
  - intros k l n f t i Hn Ht Et Hv. pose proof (sample_value k l n f _ t Hn Hv Ht) as W; clear Hn Hv Ht; destruct W as [[E ->]|[[E ->]|[[E ->]|[[E ->]|[[E ->]|[[E ->]|[E ->]]]]]]]; try discriminate E; discriminate Et.
  - intros k l n f t i Hn Ht Et Hv. pose proof (sample_value k l n f _ t Hn Hv Ht) as W; clear Hn Hv Ht; destruct W as [[E ->]|[[E ->]|[[E ->]|[[E ->]|[[E ->]|[[E ->]|[E ->]]]]]]]; discriminate E.
Qed.
Example C98_case : doc_ok doc_heap sample_doc /\ java_readable doc_heap sample_doc /\ match msgpack_encode doc_heap sample_doc false true with
  | (_, Ok bytes) => zlen bytes = 220 /\ match java_decode bytes with
      | Ok j => jd_props j = [(s "id", JInt 1)] /\ jd_texts j = [(s "main", s "one two")] /\ map fst (jd_layers j) = [s "token"; s "phrase"] /\
          map (fun kl => snd (snd kl)) (jd_layers j) =
            [[[(s "text", JSpan (s "main") 0 3); (s "pos", JStr (s "N"))]; [(s "text", JSpan (s "main") 4 7); (s "head", JNode (s "token") 0)]];
             [[(s "words", JNodeSpan (s "token") 0 1); (s "args", JNodes (s "token") [1; 0]%nat); (s "score", JInt 7)]]]
      | Err _ => False
      end
  | _ => False
  end.
Proof. split; [apply dv_ok, sample_valid|]. split; [exact sample_readable|]. vm_compute. repeat split. Qed.

(** What is not readable, one document for each reason. *)
Definition props_doc (ps : dict mobj) : doc := mkDoc (MMap ps) [] [].
Lemma props_doc_ok ps : python_value (MMap ps) -> doc_ok empty_heap (props_doc ps).
Proof.
  intros P. split.
  - exact wf_empty.
  - intros k l [].
  - constructor.
  - constructor.
  - exact P.
  - intros k f t (l & [] & _).
  - intros k l n f v t [[] _].
Qed.
Definition field_heap (t : dtype) (v : value) : heap := exec_all Z.leb empty_heap [OLayer (s "x") [(s "f", t)]; OAdd 0%nat []; OSetField 0%nat (s "f") v].
Definition field_doc : doc := mkDoc (MMap []) [] [(s "x", 0%nat)].
Ltac field_ok tac :=
  split; [apply ops_ok_wf, ops_okb_sound; vm_compute; reflexivity|intros k l [[= <- <-]|[]]; vm_compute; auto|cbn; constructor|repeat constructor; simpl; tauto|constructor; repeat constructor|
    intros k f t (l & [[= <- <-]|[]] & Hf); vm_compute in Hf; destruct Hf as [[= <- <-]|[]]; split; [discriminate|]; split; [discriminate|]; split;
      [split; vm_compute; intros H; exfalso; intuition discriminate|]; split; [vm_compute; repeat constructor; simpl; tauto|];
      vm_compute; intros o v Hov; repeat (destruct Hov as [[= <- <-]|Hov]; [constructor; reflexivity|]); destruct Hov|
    intros k l n f v t [[[= <- <-]|[]] Hn] Hv Ht; apply dget_In in Hv; vm_compute in Hn; destruct Hn as [[= <-]|[]]; vm_compute in Hv; destruct Hv as [[= <- <-]|[]];
      vm_compute in Ht; injection Ht as <-; tac].
(** bytes in a field: written as a binary object, expected as an array *)
Lemma bytes_ok : doc_ok (field_heap T_binary (VBytes [1; 2]%N)) field_doc.
Proof. field_ok ltac:(apply vo_bytes; [reflexivity|repeat constructor]). Qed.
(** an i32 field that holds more than 32 bits *)
Lemma wide_ok : doc_ok (field_heap (T_int32 VNone) (VInt 2147483648)) field_doc.
Proof. field_ok ltac:(apply vo_int; simpl; auto). Qed.
(** DataTypeFloat(DataTypeEnum.F64, default=0.1) *)
Definition float_tenth : dtype := mkDT KFloat TF64 (opt_default (VFloat 4591870180066957722)).
(** the default value 0.1 of a float64 field goes through float *)
Lemma tenth_ok : doc_ok (field_heap float_tenth (VFloat 0)) field_doc.
Proof. field_ok ltac:(apply vo_float; reflexivity). Qed.
Definition java_of (h : heap) (d : doc) : res jdoc := let* b := snd (msgpack_encode h d false true) in java_decode b.
Theorem C98_all_refuted :
  (exists h d, doc_ok h d /\ (exists b, snd (msgpack_encode h d false true) = Ok b) /\ java_of h d = Err TypeError) /\
  (exists h d, doc_ok h d /\ (exists b, snd (msgpack_encode h d true false) = Ok b /\ java_decode b = Err OverflowError)) /\
  (exists h d j fs ns, doc_ok h d /\ java_of h d = Ok j /\ jd_layers j = [(s "x", (fs, ns))] /\
     dt_opts float_tenth = [(s "default", VFloat 4591870180066957722)] /\ fs = [(s "f", mkJT (JT TF64) [(s "default", JDouble 4591870180174331904)])]) /\
  (exists ps j, doc_ok empty_heap (props_doc ps) /\ ps = [(s "a", MInt (2 ^ 63))] /\ java_of empty_heap (props_doc ps) = Ok j /\ jd_props j = [(s "a", JLong (- 2 ^ 63))]) /\
  (exists ps, doc_ok empty_heap (props_doc ps) /\ ps = [(s "a", MNil)] /\ java_of empty_heap (props_doc ps) = Err NotImplementedError).
Proof.
  split; [|split; [|split; [|split]]].
  - exists (field_heap T_binary (VBytes [1; 2]%N)), field_doc. split; [exact bytes_ok|]. split; [eexists; vm_compute; reflexivity|vm_compute; reflexivity].
  - exists (field_heap (T_int32 VNone) (VInt 2147483648)), field_doc. split; [exact wide_ok|]. eexists. split; [vm_compute; reflexivity|]. vm_compute. reflexivity.
  - exists (field_heap float_tenth (VFloat 0)), field_doc. do 3 eexists. split; [exact tenth_ok|]. split; [vm_compute; reflexivity|]. split; [vm_compute; reflexivity|]. split; vm_compute; reflexivity.
  - do 2 eexists. split; [|split; [reflexivity|split; [vm_compute; reflexivity|vm_compute; reflexivity]]]. apply props_doc_ok. constructor; repeat constructor; simpl; tauto.
  - eexists. split; [|split; [reflexivity|vm_compute; reflexivity]]. apply props_doc_ok. constructor; repeat constructor; simpl; tauto.
Qed.
Print Assumptions C98_all_refuted.
