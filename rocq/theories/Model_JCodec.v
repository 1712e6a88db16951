(** MsgpackCodec.decode of the Java port (java/core/src/main/java/se/lth/cs/docria/MsgpackCodec.java 418-870):
    what a MessageUnpacker over the bytes delivers, call by call, and the document that is made of it.
    A decoded document is a value: a layer is the list of its nodes, a node the map of its fields, a
    reference to a node is a layer name and a position (Layer.get of a layer without gaps, C93).
    Names and string values are sequences of code points (the code units of them are in C97); texts and the
    positions in them are in UTF-16 units.  A map is a [dict] without regard to order.
    Exceptions as in Model_JLayer.v and Model_JStream.v; UnsupportedOperationException is NotImplementedError.
    Simplifications: malformed UTF-8, which the library replaces, is an error; two layers of one name are not
    modelled; node factories are not modelled. *)
From Verif Require Import PyBase Model_Text Model_Heap Model_Layer Model_Types Model_Msgpack Model_Codec Model_JUnits Model_JLayer Model_JStream.
Local Open Scope Z_scope.

(** ** the unpacker *)
(** unpackLong, MsgpackCodec.java 697 *)
Definition mu_long (bs : list N) : res (Z * list N) :=
  match bs with
  | [] => Err OutOfData
  | b :: r =>
      let* (v, r1) := match classify b with
                      | TgInt z => Ok (z, r)
                      | TgUint k => mu_uint k r
                      | TgSint k => let* (v, r') := mu_uint k r in Ok (to_signed k v, r')
                      | _ => Err TypeError
                      end in
      if 2 ^ 63 <=? v then Err OverflowError else Ok (v, r1)
  end.
(** unpackDouble, MsgpackCodec.java 683 *)
Definition mu_double (bs : list N) : res (N * list N) :=
  match bs with
  | [] => Err OutOfData
  | b :: r =>
      match classify b with
      | TgFloat => let* (v, r') := mu_uint 8 r in Ok (Z.to_N v, r')
      | TgFloat32 => let* (v, r') := mu_uint 4 r in Ok (Z.to_N (single_double v), r')
      | _ => Err TypeError
      end
  end.
(** unpackString, MsgpackCodec.java 435, 493, 503, 506, 513, 589, 598, 690 *)
Definition mu_string (bs : list N) : res (pystr * list N) :=
  let* (b, r) := mu_bytes bs in let* x := utf8_decode b in Ok (x, r).
(** unpackArrayHeader, MsgpackCodec.java 491, 590, 669, 711, 754, 767 *)
Definition mu_array (bs : list N) : res (Z * list N) :=
  match bs with
  | [] => Err OutOfData
  | b :: r =>
      match classify b with
      | TgArr n => Ok (n, r)
      | TgArrN k => let* (n, r') := mu_uint k r in if 2147483647 <? n then Err ValueError else Ok (n, r')
      | _ => Err TypeError
      end
  end.
(** unpackMapHeader, MsgpackCodec.java 433, 511, 587 *)
Definition mu_map (bs : list N) : res (Z * list N) :=
  match bs with
  | [] => Err OutOfData
  | b :: r =>
      match classify b with
      | TgMap n => Ok (n, r)
      | TgMapN k => let* (n, r') := mu_uint k r in if 2147483647 <? n then Err ValueError else Ok (n, r')
      | _ => Err TypeError
      end
  end.
(** tryUnpackNil, MsgpackCodec.java 675-766: [true] if there was a nil, which is then passed over *)
Definition mu_try_nil (bs : list N) : res (bool * list N) :=
  match bs with
  | [] => Err OutOfData
  | b :: r => match classify b with TgNil => Ok (true, r) | _ => Ok (false, bs) end
  end.
(** unpackNil, MsgpackCodec.java 731 *)
Definition mu_nil (bs : list N) : res (list N) :=
  match bs with
  | [] => Err OutOfData
  | b :: r => match classify b with TgNil => Ok r | _ => Err TypeError end
  end.
(** unpackValue, MsgpackCodec.java 436, 514, 740, 746 *)
Definition mu_value (bs : list N) : res (mobj * list N) :=
  match unpack1 bs with Err StopIteration => Err OutOfData | r => r end.

(** ** values *)
(** the classes of java/core/src/main/java/se/lth/cs/docria/values, and Span, Node, NodeSpan; JHold and JHoldSpan are the
    placeholders of MsgpackCodec.java 615-651 *)
Inductive jv :=
| JInt (i : Z) | JLong (i : Z) | JDouble (b : N) | JBool (b : bool) | JStr (x : pystr) | JBin (x : list N)
| JExt (type : pystr) (x : list N)
| JSpan (text : pystr) (start stop : Z)
| JNode (layer : pystr) (i : nat)
| JNodes (layer : pystr) (is : list nat)
| JNodeSpan (layer : pystr) (left right : nat)
| JHold (is : list Z)
| JHoldSpan (left right : Z).
(** (float) of a double, rounding half to even, and back to a double (MsgpackCodec.java 531 and Values.java 38-40) *)
Definition half_even (m k : Z) : Z :=
  let q := m / 2 ^ k in
  let r := m mod 2 ^ k in
  match 2 * r ?= 2 ^ k with Lt => q | Gt => q + 1 | Eq => if Z.even q then q else q + 1 end.
(** MsgpackCodec.java 531 and Values.java 38-40 *)
Definition to_float (b : N) : N :=
  let v := Z.of_N b in
  let sign := v / 2 ^ 63 * 2 ^ 63 in
  let e := (v / 2 ^ 52) mod 2048 in
  let m := v mod 2 ^ 52 in
  if e =? 2047 then Z.to_N (if m =? 0 then v else sign + 2047 * 2 ^ 52 + Z.lor (m / 2 ^ 29 * 2 ^ 29) (2 ^ 51))
  else if e <? 873 then Z.to_N sign
  else
    let u := Z.max (e - 1046) (-149) in          (* the last place of the float *)
    let q := half_even (2 ^ 52 + m) (u - (e - 1075)) in
    if q =? 0 then Z.to_N sign
    else if 2 ^ 128 <=? q * 2 ^ Z.max u 0 then Z.to_N (sign + 2047 * 2 ^ 52)
    else let k := Z.log2 q in Z.to_N (sign + (k + u + 1023) * 2 ^ 52 + (q - 2 ^ k) * 2 ^ (52 - k)).
(** MsgpackCodec.java 444-451, 522-529: ivalue.toInt() or ivalue.toLong(), which cuts off what does not fit *)
Definition jint (z : Z) : jv :=
  if (z <? -2147483648) || (2147483647 <? z) then JLong (if 2 ^ 63 <=? z then z - 2 ^ 64 else z) else JInt z.
(** MsgpackCodec.java 437-477; the extension cases never return *)
Definition jprop (o : mobj) : res jv :=
  match o with
  | MStr x => Ok (JStr x) | MBool b => Ok (JBool b) | MInt z => Ok (jint z) | MFloat b => Ok (JDouble b) | MBin x => Ok (JBin x)
  | _ => Err NotImplementedError
  end.
(** MsgpackCodec.java 515-539 *)
Definition jarg (o : mobj) : res jv :=
  match o with
  | MFloat b => Ok (JDouble (to_float b))
  | _ => jprop o
  end.

(** ** properties and schema *)
(** MsgpackCodec.java 434-478 and 512-540: the entries of a map *)
Fixpoint jread_map (conv : mobj -> res jv) (n : nat) (acc : dict jv) (bs : list N) : res (dict jv * list N) :=
  match n with
  | O => Ok (acc, bs)
  | S n' =>
      let* (k, r) := mu_string bs in
      let* (o, r1) := mu_value r in
      let* v := conv o in
      jread_map conv n' (dset acc k v) r1
  end.
(** MsgpackCodec.java 428-481: decodeProperties *)
Definition jread_props (bs : list N) : res (dict jv * list N) :=
  let* (_, r) := mu_int bs in
  let* (n, r1) := mu_map r in
  jread_map jprop (Z.to_nat n) [] r1.

(** DataTypeName.java 20-32; [JTMissing] is null *)
Inductive jname := JTNil | JT (t : tname) | JTMissing.
(** DataTypeName.java 51-53: from *)
Definition jname_from (x : pystr) : jname :=
  if str_eqb x (s "nil") then JTNil else match string_type x with Ok t => JT t | Err _ => JTMissing end.
(** DataType.java 87-93 *)
Record jdtype := mkJT { ty_name : jname; ty_args : dict jv }.
(** MsgpackCodec.java 543-566: types without arguments *)
Definition jplain (x : pystr) : res jdtype :=
  match jname_from x with
  | JT (TBinary | TString | TBool | TF64 | TI32 | TI64) => Ok (mkJT (jname_from x) [])
  | JTMissing => Err AttributeError
  | _ => Err NotImplementedError
  end.
(** MsgpackCodec.java 502-570: one field *)
Definition jread_field (bs : list N) : res (pystr * jdtype * list N) :=
  let* (f, r) := mu_string bs in
  let* (extended, r1) := mu_bool r in
  let* (x, r2) := mu_string r1 in
  if (extended : bool) then
    let* (n, r3) := mu_map r2 in
    let* (args, r4) := jread_map jarg (Z.to_nat n) [] r3 in
    Ok (f, mkJT (jname_from x) args, r4)
  else let* t := jplain x in Ok (f, t, r2).
(** MsgpackCodec.java 502-570 and Schema.java 85-92: a field that exists already is refused *)
Fixpoint jread_fields (n : nat) (acc : dict jdtype) (bs : list N) : res (dict jdtype * list N) :=
  match n with
  | O => Ok (acc, bs)
  | S n' => let* (ft, r) := jread_field bs in
            if dmem acc (fst ft) then Err ValueError else jread_fields n' (acc ++ [ft]) r
  end.
(** MsgpackCodec.java 491-493 *)
Fixpoint jread_names (n : nat) (bs : list N) : res (list pystr * list N) :=
  match n with
  | O => Ok ([], bs)
  | S n' => let* (x, r) := mu_string bs in let* (q, r1) := jread_names n' r in Ok (x :: q, r1)
  end.
(** MsgpackCodec.java 495-578 *)
Fixpoint jread_schemas (names : list pystr) (bs : list N) : res (dict (dict jdtype) * list N) :=
  match names with
  | [] => Ok ([], bs)
  | x :: rest =>
      let* (n, r) := mu_int bs in
      let* (fs, r1) := jread_fields (Z.to_nat n) [] r in
      let* (q, r2) := jread_schemas rest r1 in
      Ok ((x, fs) :: q, r2)
  end.
(** MsgpackCodec.java 483-581: decodeSchema *)
Definition jread_schema (bs : list N) : res (dict (dict jdtype) * list N) :=
  let* (n, r) := mu_array bs in
  let* (names, r1) := jread_names (Z.to_nat n) r in
  if names_nodup names then jread_schemas names r1 else Err Unmodelled.

(** ** texts *)
(** MsgpackCodec.java 597-602: the text so far, the offsets so far *)
Fixpoint jread_parts (n : nat) (sb : list N) (offs : list Z) (bs : list N) : res (list N * list Z * list N) :=
  match n with
  | O => Ok (sb, offs, bs)
  | S n' => let* (x, r) := mu_string bs in
            let sb' := sb ++ utf16 x in
            jread_parts n' sb' (offs ++ [zlen sb']) r
  end.
(** MsgpackCodec.java 588-610; Document.java 74-80 refuses a second text of one name *)
Fixpoint jread_texts_n (n : nat) (acc : dict (list N * list Z)) (bs : list N) : res (dict (list N * list Z) * list N) :=
  match n with
  | O => Ok (acc, bs)
  | S n' =>
      let* (c, r) := mu_string bs in
      let* (k, r1) := mu_array r in
      let* (p, r2) := jread_parts (Z.to_nat k) [] [0] r1 in
      if dmem acc c then Err ValueError else jread_texts_n n' (acc ++ [(c, p)]) r2
  end.
(** MsgpackCodec.java 583-613: decodeTexts *)
Definition jread_texts (bs : list N) : res (dict (list N * list Z) * list N) :=
  let* (_, r) := mu_int bs in
  let* (n, r1) := mu_map r in
  jread_texts_n (Z.to_nat n) [] r1.

(** ** layers *)
(** fieldType.args().get(key).stringValue(), MsgpackCodec.java 717, 736, 788, 800, 817 *)
Definition arg_name (t : jdtype) (key : pystr) : res pystr :=
  match dget (ty_args t) key with Some (JStr x) => Ok x | Some _ => Err Unmodelled | None => Err AttributeError end.
(** MsgpackCodec.java 756-758 *)
Fixpoint jread_ints (n : nat) (bs : list N) : res (list Z * list N) :=
  match n with
  | O => Ok ([], bs)
  | S n' => let* (i, r) := mu_int bs in let* (q, r1) := jread_ints n' r in Ok (i :: q, r1)
  end.
(** int addition (MsgpackCodec.java 770) *)
Definition int_add (a b : Z) : Z := to_signed 4 ((a + b) mod 2 ^ 32).
(** the value of one node in a column where it is not nil (MsgpackCodec.java 671-778); [key] is the argument that the type needs *)
Definition jcell (texts : dict (list N * list Z)) (t : tname) (key : pystr) (bs : list N) : res (jv * list N) :=
  match t with
  | TI32 | TNodeRef => let* (i, r) := mu_int bs in Ok (JInt i, r)
  | TI64 => let* (i, r) := mu_long bs in Ok (JLong i, r)
  | TF64 => let* (b, r) := mu_double bs in Ok (JDouble b, r)
  | TString => let* (x, r) := mu_string bs in Ok (JStr x, r)
  | TBool => let* (b, r) := mu_bool bs in Ok (JBool b, r)
  | TBinary => let* (n, r) := mu_array bs in let* (x, r1) := mu_payload n r in Ok (JBin x, r1)
  | TSpan =>
      let* (a, r) := mu_int bs in
      let* (b, r1) := mu_int r in
      match dget texts key with
      | None => Err AttributeError
      | Some (_, offs) => let* x := java_get offs a in let* y := java_get offs b in Ok (JSpan key x y, r1)
      end
  | TExt => let* (o, r) := mu_value bs in match o with MBin x => Ok (JExt key x, r) | _ => Err TypeError end
  | TNodeRefMany => let* (n, r) := mu_array bs in let* (is, r1) := jread_ints (Z.to_nat n) r in Ok (JHold is, r1)
  | TNodeRefSpan =>
      let* (n, r) := mu_array bs in
      if negb (n =? 2) then Err AssertionError else
      let* (a, r1) := mu_int r in
      let* (len, r2) := mu_int r1 in
      Ok (JHoldSpan a (int_add len a), r2)
  | TUnknown => Err NotImplementedError
  end.
(** MsgpackCodec.java 671-775: a value or nil *)
Definition jcell_opt (texts : dict (list N * list Z)) (t : tname) (key : pystr) (bs : list N) : res (option jv * list N) :=
  let* (none, r) := mu_try_nil bs in
  if (none : bool)
  then let* r' := match t with TSpan => mu_nil r | _ => Ok r end in Ok (None, r')
  else let* (v, r') := jcell texts t key r in Ok (Some v, r').
(** MsgpackCodec.java 671-775: one for each node *)
Fixpoint jcells (texts : dict (list N * list Z)) (t : tname) (key : pystr) (n : nat) (bs : list N) : res (list (option jv) * list N) :=
  match n with
  | O => Ok ([], bs)
  | S n' =>
      let* (o, r1) := jcell_opt texts t key bs in
      let* (q, r2) := jcells texts t key n' r1 in
      Ok (o :: q, r2)
  end.
(** the argument that is looked up before the nodes (MsgpackCodec.java 717, 736) *)
Definition jkey (t : jdtype) : res pystr :=
  match ty_name t with
  | JT TSpan => arg_name t (s "context")
  | JT TExt => arg_name t (s "type")
  | _ => Ok []
  end.
(** nodes.get(k).put(field, ...) for each node, MsgpackCodec.java 674-775 *)
Fixpoint put_column (f : pystr) (nodes : list (dict jv)) (col : list (option jv)) : list (dict jv) :=
  match nodes, col with
  | n :: r, Some v :: c => dset n f v :: put_column f r c
  | n :: r, None :: c => n :: put_column f r c
  | _, _ => nodes
  end.
(** MsgpackCodec.java 663-779 *)
Fixpoint jread_columns (texts : dict (list N * list Z)) (fs : dict jdtype) (nodes : list (dict jv)) (bs : list N) : res (list (dict jv) * list N) :=
  match fs with
  | [] => Ok (nodes, bs)
  | (f, t) :: rest =>
      let* (specialized, r) := mu_bool bs in
      if (specialized : bool) then Err NotImplementedError else
      let* (_, r1) := mu_array r in
      let* key := jkey t in
      match ty_name t with
      | JTNil => Err NotImplementedError
      | JTMissing => Err AttributeError
      | JT tn => let* (col, r2) := jcells texts tn key (length nodes) r1 in
                 jread_columns texts rest (put_column f nodes col) r2
      end
  end.
(** MsgpackCodec.java 653-780: decodeLayer; a negative number of nodes is refused by ArrayList *)
Definition jread_layer (texts : dict (list N * list Z)) (fs : dict jdtype) (bs : list N) : res (list (dict jv) * list N) :=
  let* (_, r) := mu_int bs in
  let* (n, r1) := mu_int r in
  if n <? 0 then Err ValueError else
  jread_columns texts fs (repeat [] (Z.to_nat n)) r1.
(** MsgpackCodec.java 854-856 *)
Fixpoint jread_layers (texts : dict (list N * list Z)) (sch : dict (dict jdtype)) (bs : list N) : res (dict (dict jdtype * list (dict jv)) * list N) :=
  match sch with
  | [] => Ok ([], bs)
  | (k, fs) :: rest =>
      let* (ns, r) := jread_layer texts fs bs in
      let* (q, r1) := jread_layers texts rest r in
      Ok ((k, (fs, ns)) :: q, r1)
  end.

(** ** references *)
(** targetLayer.get(id), MsgpackCodec.java 794, 808, 823-824; a layer that does not exist is null *)
Definition jtarget (size : option nat) (i : Z) : res nat :=
  match size with
  | None => Err AttributeError
  | Some n => if (0 <=? i) && (i <? Z.of_nat n) then Ok (Z.to_nat i) else Err IndexError
  end.
(** MsgpackCodec.java 792-827: the value that takes the place of a number or placeholder.
    NodeArrayValue.java 28-43: no empty array; NodeSpan.java 26-30: left before right. *)
Definition jreplace (x : pystr) (size : option nat) (v : jv) : res jv :=
  match v with
  | JInt i => let* k := jtarget size i in Ok (JNode x k)
  | JHold is => match is with
                | [] => Err ValueError
                | _ => let* ks := mapM (jtarget size) is in Ok (JNodes x ks)
                end
  | JHoldSpan a b => let* p := jtarget size a in
                     let* q := jtarget size b in
                     if (p <=? q)%nat then Ok (JNodeSpan x p q) else Err DataError
  | _ => Err TypeError
  end.
(** MsgpackCodec.java 784-831: one field of all nodes *)
Definition jresolve_field (sizes : dict nat) (ft : pystr * jdtype) (nodes : list (dict jv)) : res (list (dict jv)) :=
  match ty_name (snd ft) with
  | JT TNodeRef | JT TNodeRefMany | JT TNodeRefSpan =>
      let* x := arg_name (snd ft) (s "layer") in
      mapM (fun n => match dget n (fst ft) with
                     | None => Ok n
                     | Some v => let* w := jreplace x (dget sizes x) v in Ok (dset n (fst ft) w)
                     end) nodes
  | _ => Ok nodes
  end.
(** MsgpackCodec.java 782-832: resolveReferences; the code takes the fields by name (TreeMap), here they are in the order of the file *)
Fixpoint jresolve (sizes : dict nat) (fs : dict jdtype) (nodes : list (dict jv)) : res (list (dict jv)) :=
  match fs with
  | [] => Ok nodes
  | ft :: rest => let* ns := jresolve_field sizes ft nodes in jresolve sizes rest ns
  end.

(** ** documents *)
(** Document.java 24-39 *)
Record jdoc := mkJDoc { jd_props : dict jv; jd_texts : dict (list N); jd_layers : dict (dict jdtype * list (dict jv)) }.
(** MsgpackCodec.java 834-870: decode *)
Definition java_decode (bs : list N) : res jdoc :=
  let* (header, r) := mu_payload 4 bs in
  if negb (list_eqb N.eqb header magic) then Err IOError else
  let* (props, r1) := jread_props r in
  let* (sch, r2) := jread_schema r1 in
  let* (texts, r3) := jread_texts r2 in
  let* (layers, _) := jread_layers texts sch r3 in
  let sizes := map (fun kl => (fst kl, length (snd (snd kl)))) layers in
  let* ls := mapM (fun kl => let* ns := jresolve sizes (fst (snd kl)) (snd (snd kl)) in Ok (fst kl, (fst (snd kl), ns))) layers in
  Ok (mkJDoc props (map (fun kt => (fst kt, fst (snd kt))) texts) ls).
