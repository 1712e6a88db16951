(** XmlCodec.encode_utf8string (py/docria/codec.py 983-996): the text of an XML tree.  ElementTree.write is that of CPython 3.9 or later
    (Lib/xml/etree/ElementTree.py) with encoding utf-8 and the other arguments left at their defaults: no XML declaration, short empty elements.
    The elements of encode_tree have no text and no tail.  The bytes are decoded again, so only the handling of characters that UTF-8 cannot
    encode is left of the encoding. *)
From Verif Require Import PyBase Model_Text Model_Heap Model_Layer Model_Types Model_Msgpack Model_Document Model_Codec Model_Query Model_XmlString Model_Xml.
From Verif Require Model_Printout.
Local Open Scope Z_scope.

(** _escape_attrib: the replacements one after the other come to the same as one character at a time, since & is replaced first (ElementTree.write, codec.py 984-996) *)
Definition esc_attr_char (c : N) : pystr :=
  if N.eqb c 38 then s "&amp;" else if N.eqb c 60 then s "&lt;" else if N.eqb c 62 then s "&gt;" else if N.eqb c 34 then s "&quot;"
  else if N.eqb c 13 then s "&#13;" else if N.eqb c 10 then s "&#10;" else if N.eqb c 9 then s "&#09;" else [c].
(** ElementTree.write, codec.py 984-996 *)
Definition esc_attr (x : pystr) : pystr := flat_map esc_attr_char x.

(** _namespace_map (ElementTree.write, codec.py 984-996) *)
Definition known_prefix (uri : pystr) : option pystr :=
  dget [(s "http://www.w3.org/XML/1998/namespace", s "xml"); (s "http://www.w3.org/1999/xhtml", s "html");
        (s "http://www.w3.org/1999/02/22-rdf-syntax-ns#", s "rdf"); (s "http://schemas.xmlsoap.org/wsdl/", s "wsdl");
        (s "http://www.w3.org/2001/XMLSchema", s "xs"); (s "http://www.w3.org/2001/XMLSchema-instance", s "xsi");
        (s "http://purl.org/dc/elements/1.1/", s "dc")] uri.
(** x.rsplit("}", 1): None if there is no brace (ElementTree.write, codec.py 984-996) *)
Fixpoint rsplit_brace (x : pystr) : option (pystr * pystr) :=
  match x with
  | [] => None
  | c :: r => match rsplit_brace r with
              | Some (a, b) => Some (c :: a, b)
              | None => if N.eqb c 125 then Some ([], r) else None
              end
  end.
(** _namespaces.add_qname; the tables are those of names and of namespaces (ElementTree.write, codec.py 984-996) *)
Definition add_qname (st : dict pystr * dict pystr) (q : pystr) : res (dict pystr * dict pystr) :=
  let (qnames, spaces) := st in
  match q with
  | c :: r =>
      if N.eqb c 123 then
        match rsplit_brace r with
        | None => Err ValueError
        | Some (uri, tag) =>
            let (prefix, spaces') :=
              match dget spaces uri with
              | Some p => (p, spaces)
              | None => let p := match known_prefix uri with Some p => p | None => s "ns" ++ Model_Printout.str_int (zlen spaces) end in
                        (p, if str_eqb p (s "xml") then spaces else dset spaces uri p)
              end in
            Ok (dset qnames q (prefix ++ s ":" ++ tag), spaces')
        end
      else Ok (dset qnames q q, spaces)
  | [] => Ok (dset qnames q q, spaces)
  end.
(** ElementTree.write, codec.py 984-996 *)
Definition see_qname (st : dict pystr * dict pystr) (q : pystr) : res (dict pystr * dict pystr) :=
  if dmem (fst st) q then Ok st else add_qname st q.
(** ElementTree.write, codec.py 984-996 *)
Fixpoint see_qnames (st : dict pystr * dict pystr) (l : list pystr) : res (dict pystr * dict pystr) :=
  match l with [] => Ok st | q :: r => let* st := see_qname st q in see_qnames st r end.
(** the names of a tree in the order of elem.iter(): tag, attributes, children (ElementTree.write, codec.py 984-996) *)
Fixpoint names (x : xml) : list pystr := match x with Elem t a kids => t :: dkeys a ++ flat_map names kids end.
(** ElementTree.write, codec.py 984-996 *)
Definition namespaces (x : xml) : res (dict pystr * dict pystr) := see_qnames ([], []) (names x).

(** _serialize_xml (ElementTree.write, codec.py 984-996) *)
Definition attr_text (qnames : dict pystr) (kv : pystr * pystr) : res pystr :=
  let* q := dgetE qnames (fst kv) in Ok (s " " ++ q ++ s "=""" ++ esc_attr (snd kv) ++ s """").
(** ElementTree.write, codec.py 984-996 *)
Definition space_text (up : pystr * pystr) : pystr :=
  let k := match snd up with [] => [] | p => s ":" ++ p end in s " xmlns" ++ k ++ s "=""" ++ esc_attr (fst up) ++ s """".
(** sorted on the prefix (ElementTree.write, codec.py 984-996) *)
Definition str_leb (a b : pystr) : bool := match str_cmp a b with Gt => false | _ => true end.
(** ElementTree.write, codec.py 984-996 *)
Definition spaces_text (spaces : dict pystr) : pystr := flat_map space_text (ssort snd str_leb spaces).
(** ElementTree.write, codec.py 984-996 *)
Fixpoint serialize (qnames : dict pystr) (spaces : dict pystr) (x : xml) : res pystr :=
  match x with
  | Elem t a kids =>
      let* tag := dgetE qnames t in
      let* items := mapM (attr_text qnames) a in
      let start := s "<" ++ tag ++ spaces_text spaces ++ List.concat items in
      match kids with
      | [] => Ok (start ++ s " />")
      | _ => let* ks := (fix go (l : list xml) : res (list pystr) :=
                           match l with [] => Ok [] | y :: r => let* k := serialize qnames [] y in let* q := go r in Ok (k :: q) end) kids in
             Ok (start ++ s ">" ++ List.concat ks ++ s "</" ++ tag ++ s ">")
      end
  end.
(** errors="xmlcharrefreplace": the code points that UTF-8 cannot encode (ElementTree.write, codec.py 984-996) *)
Definition surrogate (c : N) : bool := ((55296 <=? c) && (c <=? 57343))%N.
(** ElementTree.write, codec.py 984-996 *)
Definition written (x : pystr) : pystr :=
  flat_map (fun c => if surrogate c then s "&#" ++ Model_Printout.str_int (Z.of_N c) ++ s ";" else [c]) x.
(** ElementTree.write (ElementTree.write, codec.py 984-996) *)
Definition xml_write (x : xml) : res pystr :=
  let* (qnames, spaces) := namespaces x in
  let* t := serialize qnames spaces x in Ok (written t).
Section Text.
Variable float_str : N -> pystr.
Variable obj_str : mobj -> pystr.
Variable val_str : value -> pystr.
(** 983-996 *)
Definition encode_utf8string (h : heap) (d : doc) (verbose verbose_node_spans : bool) (document_id : pystr) (extra_fields_ok type_validation : bool) : hres pystr :=
  match encode_tree float_str obj_str val_str h d verbose verbose_node_spans document_id extra_fields_ok type_validation with
  | (h1, Err e) => (h1, Err e)
  | (h1, Ok x) => (h1, xml_write x)
  end.
End Text.
