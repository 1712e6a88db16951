(** XML 1.0 (W3C, fifth edition) with namespaces: the texts of a tree of elements.  Left out of the grammar: character data, comments,
    processing instructions, CDATA sections, the prolog, namespace declarations, literal carriage returns. *)
From Verif Require Import PyBase Model_Text Model_Heap Model_Layer Model_Types Model_Msgpack Model_Document Model_Codec Spec_Layer Spec_Document Spec_Codec Spec_XmlString Spec_Xml.
From Verif Require Export Model_XmlText.
From Verif Require Spec_Printout.
Local Open Scope N_scope.

Definition between (c : N) (l : list (N * N)) : Prop := exists p, In p l /\ fst p <= c <= snd p.
(** production 4 without the colon *)
Definition name_start_ranges : list (N * N) :=
  [(65, 90); (95, 95); (97, 122); (192, 214); (216, 246); (248, 767); (880, 893); (895, 8191); (8204, 8205); (8304, 8591);
   (11264, 12271); (12289, 55295); (63744, 64975); (65008, 65533); (65536, 983039)].
(** production 4a *)
Definition name_ranges : list (N * N) := name_start_ranges ++ [(45, 46); (48, 57); (183, 183); (768, 879); (8255, 8256)].
(** Namespaces in XML, production 4 *)
Definition ncname (x : pystr) : Prop :=
  match x with [] => False | c :: r => between c name_start_ranges /\ Forall (fun c => between c name_ranges) r end.
(** the name that an attribute name stands for: itself, unless it has the prefix xml *)
Inductive attr_name : pystr -> pystr -> Prop :=
| an_plain x : ncname x -> x <> s "xmlns" -> attr_name x x
| an_xml x : ncname x -> attr_name (s "{http://www.w3.org/XML/1998/namespace}" ++ x) (s "xml:" ++ x).
(** white space within tags *)
Definition blank (x : pystr) : Prop := Forall (fun c => c = 32 \/ c = 9 \/ c = 10) x.
(** what stands between & and ; for a character *)
Definition hex_digit (c d : N) : Prop := 48 <= c <= 57 /\ d = c - 48 \/ 65 <= c <= 70 /\ d = c - 55 \/ 97 <= c <= 102 /\ d = c - 87.
Inductive number (base : N) (digit : N -> N -> Prop) : N -> pystr -> Prop :=
| nu_one c d : digit c d -> number base digit d [c]
| nu_more k x c d : number base digit k x -> digit c d -> number base digit (base * k + d) (x ++ [c]).
Inductive reference : N -> pystr -> Prop :=
| rf_amp : reference 38 (s "amp")
| rf_lt : reference 60 (s "lt")
| rf_gt : reference 62 (s "gt")
| rf_quot : reference 34 (s "quot")
| rf_apos : reference 39 (s "apos")
| rf_dec c x : number 10 (fun c d => 48 <= c <= 57 /\ d = c - 48) c x -> xml_char c -> reference c (s "#" ++ x)
| rf_hex c x : number 16 hex_digit c x -> xml_char c -> reference c (s "#x" ++ x).
(** production 10 and 3.3.3: the value of an attribute and its text between the quotes q *)
Inductive att_value (q : N) : pystr -> pystr -> Prop :=
| av_nil : att_value q [] []
| av_char c v x : xml_char c -> 32 <= c -> c <> 38 -> c <> 60 -> c <> q -> att_value q v x -> att_value q (c :: v) (c :: x)
| av_blank c v x : c = 9 \/ c = 10 -> att_value q v x -> att_value q (32 :: v) (c :: x)
| av_ref c r v x : reference c r -> att_value q v x -> att_value q (c :: v) (s "&" ++ r ++ s ";" ++ x).
Inductive attributes : dict pystr -> pystr -> Prop :=
| at_nil : attributes [] []
| at_cons w k n w1 w2 q v x d y : blank w -> w <> [] -> attr_name k n -> blank w1 -> blank w2 -> q = 34 \/ q = 39 -> att_value q v x -> attributes d y ->
    attributes ((k, v) :: d) (w ++ n ++ w1 ++ s "=" ++ w2 ++ [q] ++ x ++ [q] ++ y).
(** productions 39-44 *)
Inductive element : xml -> pystr -> Prop :=
| el_empty t d x w : ncname t -> attributes d x -> NoDup (dkeys d) -> blank w -> element (Elem t d []) (s "<" ++ t ++ x ++ w ++ s "/>")
| el_full t d x w kids y w1 : ncname t -> attributes d x -> NoDup (dkeys d) -> blank w -> content kids y -> blank w1 ->
    element (Elem t d kids) (s "<" ++ t ++ x ++ w ++ s ">" ++ y ++ s "</" ++ t ++ w1 ++ s ">")
with content : list xml -> pystr -> Prop :=
| co_nil : content [] []
| co_cons e x l y : element e x -> content l y -> content (e :: l) (x ++ y).
Definition xml_document (e : xml) (x : pystr) : Prop := exists a b y, blank a /\ blank b /\ element e y /\ x = a ++ y ++ b.

(** a tree that XML can express: names, no attribute twice, legal characters in values *)
Fixpoint expressible (x : xml) : Prop :=
  match x with
  | Elem t d kids =>
      ncname t /\ NoDup (dkeys d) /\ Forall (fun kv => (exists n, attr_name (fst kv) n) /\ Forall xml_char (snd kv)) d /\
      (fix all (l : list xml) : Prop := match l with [] => True | y :: r => expressible y /\ all r end) kids
  end.
(** a document that XML can express: its field names are names of XML, and its texts, names, properties and type options are made of the characters of XML *)
Record xml_doc_ok (float_str : N -> pystr) (obj_str : mobj -> pystr) (val_str : value -> pystr) (h : heap) (d : doc) : Prop := {
  xo_props : forall ps k v, d_props d = MMap ps -> In (k, v) ps -> Forall xml_char k /\ Forall xml_char (str_obj float_str obj_str v);
  xo_texts : forall k t, In (k, t) (d_texts d) -> Forall xml_char k /\ Forall xml_char t;
  xo_layers : forall k l, In (k, l) (d_layers d) -> Forall xml_char k /\ Forall xml_char (l_nameof h l);
  xo_fields : forall k l f t, In (k, l) (d_layers d) -> In (f, t) (l_fields (h_layer h l)) -> ncname f /\ f <> s "xmlns" /\
    forall a v, In (a, v) (dt_opts t) -> Forall xml_char a /\ Forall xml_char (str_value float_str val_str v);
  xo_floats : forall b, Forall xml_char (float_str b) }.
(** a name with an opening brace at the front and no closing one *)
Definition half_named (q : pystr) : Prop := exists r, q = 123 :: r /\ ~ In 125 r.
