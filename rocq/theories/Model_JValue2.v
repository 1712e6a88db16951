(** Making and comparing values of the Java port, and documents as values:
    java/core/src/main/java/se/lth/cs/docria/values/Values.java, the methods equals and hashCode of values/*.java
    and Node.java, values/DocumentValue.java.
    Values as in Model_JValue.v: None is NullValue.INSTANCE.  ArrayStoreException is TypeError.
    Simplifications: every node is bound to a layer of one and the same document (Layer.java 55-64 compares
    documents and schemas, which have no method equals, as objects); equality of spans is in Model_JText.v. *)
From Verif Require Import PyBase Model_Text Model_Heap Model_Layer Model_Types Model_JUnits Model_JCodec Model_JEncode Model_JEdit Model_JValue.
Local Open Scope Z_scope.

(** ** making values *)
(** objects handed to Values.get, values/Values.java 74-109; a node is a layer and a position; OFloat: the float as a double *)
Inductive element := ENode (l : pystr) (i : nat) | ENull | EOther.
Inductive jobject :=
| ONull | OValue (v : option jv) | OInteger (i : Z) | OLong (i : Z) | OFloat (b : N) | ODouble (b : N) | ONumber | OString (x : pystr)
| OBytes (x : list N) | OBoolean (b : bool) | ONodes (l : list (option (pystr * nat))) | OList (l : list element) | OOther.
(** a value, or an array of nodes, which may be of several layers (values/NodeArrayValue.java 26) *)
Inductive made := MValue (v : option jv) | MNodes (l : list (option (pystr * nat))).
(** values/NodeArrayValue.java 35-39: every node is of the layer of the first *)
Fixpoint one_layer (x : pystr) (r : list (option (pystr * nat))) : res unit :=
  match r with
  | [] => Ok tt
  | None :: _ => Err AttributeError
  | Some (y, _) :: r' => if str_eqb y x then one_layer x r' else Err ValueError
  end.
(** values/NodeArrayValue.java 28-43: the constructor with an array *)
Definition array_value (l : list (option (pystr * nat))) : res made :=
  match l with
  | [] => Err ValueError
  | None :: _ => Err AttributeError
  | Some (x, _) :: _ => let* _ := one_layer x l in Ok (MNodes l)
  end.
(** values/NodeArrayValue.java 50-52: the constructor with a list *)
Definition list_value (l : list element) : res made :=
  let* xs := mapM (fun e => match e with ENode x i => Ok (Some (x, i)) | ENull => Ok None | EOther => Err TypeError end) l in Ok (MNodes xs).
(** values/Values.java 74-109 *)
Definition get_value (o : jobject) : res made :=
  match o with
  | ONull => Ok (MValue None)
  | OValue v => Ok (MValue v)
  | OInteger i => Ok (MValue (Some (JInt i)))
  | OLong i => Ok (MValue (Some (JLong i)))
  | OFloat b | ODouble b => Ok (MValue (Some (JDouble b)))
  | ONumber => Err NotImplementedError
  | OString x => Ok (MValue (Some (JStr x)))
  | OBytes x => Ok (MValue (Some (JBin x)))
  | OBoolean b => Ok (MValue (Some (JBool b)))
  | ONodes l => array_value l
  | OList (ENode x i :: r) => list_value (ENode x i :: r)
  | _ => Err NotImplementedError
  end.

(** ** comparing values *)
(** Double.doubleToLongBits, with which Double.compare and Double.hashCode tell doubles apart (values/DoubleValue.java 68-81) *)
Definition double_bits (b : N) : N := if Z.of_N b mod 2 ^ 63 <=? 2047 * 2 ^ 52 then b else 0x7FF8000000000000%N.
(** equals of two objects that are not the same (values/IntValue.java 66-74, LongValue.java 66-74, DoubleValue.java 68-76, BoolValue.java 63-71, StringValue.java 46-54,
    BinaryValue.java 51-59, Node.java 167-175); there is one NullValue; the others do not override equals *)
Definition equal_value (v w : option jv) : bool :=
  match v, w with
  | None, None => true
  | Some (JInt a), Some (JInt b) => a =? b
  | Some (JLong a), Some (JLong b) => a =? b
  | Some (JDouble a), Some (JDouble b) => N.eqb (double_bits a) (double_bits b)
  | Some (JBool a), Some (JBool b) => Bool.eqb a b
  | Some (JStr a), Some (JStr b) => str_eqb (utf16 a) (utf16 b)
  | Some (JBin a), Some (JBin b) => list_eqb N.eqb a b
  | Some (JNode l i), Some (JNode m k) => str_eqb l m && Nat.eqb i k
  | _, _ => false
  end.
(** String.hashCode and Arrays.hashCode: polynomials in 31, as ints (values/StringValue.java 56-59, values/BinaryValue.java 61-64) *)
Definition poly31 (start : Z) (l : list Z) : Z := fold_left (fun a c => to_int (31 * a + c)) l start.
(** Objects.hash of one object (values/IntValue.java 76-79) *)
Definition objects_hash (h : Z) : Z := to_int (31 + h).
(** Long.hashCode (values/LongValue.java 76-79) *)
Definition long_hash (i : Z) : Z := let u := i mod 2 ^ 64 in to_int (Z.lxor u (u / 2 ^ 32)).
(** hashCode (values/IntValue.java 76-79, LongValue.java 76-79, DoubleValue.java 78-81, BoolValue.java 73-76, StringValue.java 56-59, BinaryValue.java 61-64, Node.java 177-182);
    layer: Layer.hashCode; the others have the hash of the object *)
Definition hash_value (layer : pystr -> Z) (v : option jv) : option Z :=
  match v with
  | Some (JInt i) => Some (objects_hash i)
  | Some (JLong i) => Some (objects_hash (long_hash i))
  | Some (JDouble b) => Some (objects_hash (long_hash (Z.of_N (double_bits b))))
  | Some (JBool b) => Some (objects_hash (if b then 1231 else 1237))
  | Some (JStr x) => Some (objects_hash (poly31 0 (map Z.of_N (utf16 x))))
  | Some (JBin x) => Some (poly31 1 (map (fun c => if (c <? 128)%N then Z.of_N c else Z.of_N c - 256) x))
  | Some (JNode l i) => Some (to_int (31 * Z.of_nat i + layer l))
  | _ => None
  end.

(** ** documents as values *)
(** values/DocumentValue.java 9-10 *)
Record jdocval := mkDV { dv_bytes : option (list N); dv_doc : option jdoc }.
(** values/DocumentValue.java 12-26 *)
Definition dv_of_bytes (b : list N) : jdocval := mkDV (Some b) None.
Definition dv_of_doc (j : jdoc) : jdocval := mkDV None (Some j).
(** values/DocumentValue.java 28-34: binaryValue *)
Definition dv_binary (v : jdocval) : res (list N) :=
  match dv_bytes v, dv_doc v with
  | Some b, _ => Ok b
  | None, Some j => java_encode j
  | None, None => Err AttributeError
  end.
(** values/DocumentValue.java 46-53: documentValue; the bytes are let go *)
Definition dv_document (v : jdocval) : jdocval * res jdoc :=
  match dv_doc v, dv_bytes v with
  | Some j, _ => (v, Ok j)
  | None, Some b => match java_decode b with
                    | Ok j => (mkDV None (Some j), Ok j)
                    | Err e => (v, Err e)
                    end
  | None, None => (v, Err AttributeError)
  end.
(** values/DocumentValue.java 41-44: stringValue *)
Definition dv_string (v : jdocval) : jdocval * res (list N) :=
  match dv_document v with
  | (v1, Err e) => (v1, Err e)
  | (v1, Ok j) => (v1, Ok (match dget (jd_texts j) (s "main") with Some t => t | None => s "null" end))
  end.
(** documentValue() and one operation of Model_JEdit.v on what it returns (values/DocumentValue.java 46-53) *)
Definition dv_edit (v : jdocval) (e : edit) : jdocval * res unit :=
  match dv_document v with
  | (v1, Err x) => (v1, Err x)
  | (v1, Ok d) => let (d1, r) := run_edit e d in (mkDV (dv_bytes v1) (Some d1), r)
  end.
(** calls of values/DocumentValue.java 28-53 *)
Inductive dvcall := DVBinary | DVDocument | DVString | DVEdit (e : edit).
(** values/DocumentValue.java 28-53: the value after a call *)
Definition dv_call (v : jdocval) (c : dvcall) : jdocval :=
  match c with
  | DVBinary => v
  | DVDocument => fst (dv_document v)
  | DVString => fst (dv_string v)
  | DVEdit e => fst (dv_edit v e)
  end.
