(** Programs that build and change one document. *)
From Verif Require Import PyBase Model_Heap Model_Layer Model_Types Model_Msgpack Model_Document Model_Codec
  Spec_Layer Spec_History Spec_Types Spec_Msgpack Spec_Document Spec_Codec.
Local Open Scope Z_scope.

Section Program.
Context {K : Type} (leb : K -> K -> bool).

(** One statement of the program. *)
Inductive dop :=
| DText (name t : pystr)                         (* doc.add_text(name, t) *)
| DMain (t : pystr)                              (* doc.maintext = t *)
| DLayer (name : pystr) (fs : dict dtype)        (* doc.add_layer(name, **fs) *)
| DRemoveLayer (name : pystr) (cascade : bool)   (* doc.remove_layer(name, cascade) *)
| DProps (p : mobj)                              (* doc.props = p *)
| DEncode (ex tv : bool)                         (* encode, the bytes thrown away *)
| DCall (o : lop (K:=K)).                        (* a node, or a call on a layer or a node *)

(** Its effect; a statement that raises leaves what the code left behind, and the program goes on. *)
Definition drun (h : heap) (d : doc) (o : dop) : heap * doc :=
  match o with
  | DText name t => (h, add_text d name t)
  | DMain t => (h, match set_maintext d t with Ok d' => d' | Err _ => d end)
  | DLayer name fs => fst (add_layer h d name fs)
  | DRemoveLayer name c => (h, match remove_layer h d name c with Ok (d', _) => d' | Err _ => d end)
  | DProps p => (h, mkDoc p (d_texts d) (d_layers d))
  | DEncode ex tv => (fst (msgpack_encode h d ex tv), d)
  | DCall o => (fst (exec leb h o), d)
  end.

(** ** Which statements *)
(** a value: spans lie within a text that the document has; a float has 64 bits and bytes are bytes *)
Definition good (ts : dict pystr) (v : value) : Prop :=
  match v with
  | VSpan c t a b => dget ts c = Some t /\ 0 <= a <= b /\ b <= zlen t
  | VFloat b => (b < 18446744073709551616)%N
  | VBytes x => bytes x
  | _ => True
  end.
(** a field type: not an extension type, the option its class needs is there, options are simple values *)
Definition plain (t : dtype) : Prop :=
  dt_name t <> TExt /\ dt_name t <> TUnknown /\ (exists name, type_ok t name) /\
  NoDup (dkeys (dt_opts t)) /\ (forall k v, In (k, v) (dt_opts t) -> option_value v).
(** the values and types that a call is given *)
Definition given (o : lop (K:=K)) : dict value :=
  match o with ONode f => f | OAdd _ kw => kw | OSetField _ k v => [(k, v)] | _ => [] end.
Definition given_types (o : lop (K:=K)) : dict dtype :=
  match o with OLayer _ fs => fs | OAddField _ k t _ => [(k, t)] | _ => [] end.
Definition dop_ok (h : heap) (d : doc) (o : dop) : Prop :=
  match o with
  | DText name _ => ~ In name (dkeys (d_texts d))
  | DMain _ | DRemoveLayer _ _ | DEncode _ _ => True
  | DLayer name fs => NoDup (dkeys fs) /\ (forall f t, In (f, t) fs -> plain t) /\
      (forall l, (l < h_lnext h)%nat -> l_nameof h l <> name)
  | DProps p => python_value p
  | DCall o => op_ok h o /\ (forall name fs, o <> OLayer name fs) /\
      (forall k v, In (k, v) (given o) -> good (d_texts d) v) /\ (forall k t, In (k, t) (given_types o) -> plain t)
  end.

(** A program, run from (h, d). *)
Inductive prog : heap -> doc -> list dop -> heap -> doc -> Prop :=
| prog_nil h d : prog h d [] h d
| prog_cons h d o os h1 d1 h2 d2 : dop_ok h d o -> drun h d o = (h1, d1) -> prog h1 d1 os h2 d2 -> prog h d (o :: os) h2 d2.
(** A document that some program made, from nothing. *)
Definition made (h : heap) (d : doc) : Prop := exists os, prog empty_heap empty_doc os h d.
End Program.

(** What encode does not check: a node span field holds no Node (C22), and a field whose type object is of
    the base class (T.string and T.bool with a default) holds a value of its type. *)
Definition settled (h : heap) (d : doc) : Prop :=
  forall k l n f t v, doc_node h d k l n -> dget (l_fields (h_layer h l)) f = Some t -> dget (n_fieldsof h n) f = Some v ->
    (dt_class t = KNodespan -> forall m, v <> VNode m) /\ (dt_class t = KBase -> value_ok h d t v).
