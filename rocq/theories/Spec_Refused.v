(** Which objects MessagePack refuses, and with what exception. *)
From Verif Require Import PyBase Model_Heap Model_Layer Model_Types Model_Msgpack Model_Document Spec_Layer Spec_Types Spec_Msgpack Spec_Document Spec_Codec.
From Verif Require Spec_Xml.
Local Open Scope Z_scope.

Inductive str_refused (x : pystr) : exn -> Prop :=
| sr_char : ~ Forall scalar x -> str_refused x UnicodeError
| sr_long : Forall scalar x -> 4294967296 <= utf8_len x -> str_refused x ValueError.
(** the length of a container is looked at first, then its elements in their order *)
Inductive refused : mobj -> exn -> Prop :=
| rf_int i : ~ (- 9223372036854775808 <= i < 18446744073709551616) -> refused (MInt i) OverflowError
| rf_str x e : str_refused x e -> refused (MStr x) e
| rf_bin x : 4294967296 <= zlen x -> refused (MBin x) ValueError
| rf_arr_long l : 4294967296 <= zlen l -> refused (MArr l) ValueError
| rf_arr pre o post e : zlen (pre ++ o :: post) < 4294967296 -> Forall fits pre -> refused o e -> refused (MArr (pre ++ o :: post)) e
| rf_map_long d : 4294967296 <= zlen d -> refused (MMap d) ValueError
| rf_key pre k v post e : zlen (pre ++ (k, v) :: post) < 4294967296 -> Forall (fun kv => str_fits (fst kv) /\ fits (snd kv)) pre -> str_refused k e ->
    refused (MMap (pre ++ (k, v) :: post)) e
| rf_value pre k v post e : zlen (pre ++ (k, v) :: post) < 4294967296 -> Forall (fun kv => str_fits (fst kv) /\ fits (snd kv)) pre -> str_fits k -> refused v e ->
    refused (MMap (pre ++ (k, v) :: post)) e.
(** A document whose parts are in order, whatever fields its nodes have: the targets of the declared types exist. *)
Record doc_nearly (h : heap) (d : doc) : Prop := {
  dn_ok : doc_ok h d;
  dn_schema : forall k l, In (k, l) (d_layers d) -> schema_ok h l;
  dn_layer_targets : forall k f t x, declared h d k f t -> targets_layer t x -> In x (dkeys (d_layers d));
  dn_text_targets : forall k f t x, declared h d k f t -> targets_text t x -> In x (dkeys (d_texts d)) }.
(** some node has a field that its layer does not declare *)
Definition has_undeclared (h : heap) (d : doc) : Prop :=
  exists k l n f v, doc_node h d k l n /\ In (f, v) (n_fieldsof h n) /\ ~ In f (dkeys (l_fields (h_layer h l))).
(** the text of a property: strings as they are, numbers of at most 4300 digits, True, False and None *)
Inductive shown_as : mobj -> pystr -> Prop :=
| sa_str x : shown_as (MStr x) x
| sa_int i x : Spec_Xml.int_text i x -> (forall y, Spec_Xml.int_text (Z.abs i) y -> zlen y <= 4300) -> shown_as (MInt i) x
| sa_true : shown_as (MBool true) (s "True")
| sa_false : shown_as (MBool false) (s "False")
| sa_none : shown_as MNil (s "None").
(** a number of more than 4300 digits *)
Definition too_long (o : mobj) : Prop := exists i y, o = MInt i /\ Spec_Xml.int_text (Z.abs i) y /\ 4300 < zlen y.
