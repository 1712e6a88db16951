(** The values of the Java port: java/core/src/main/java/se/lth/cs/docria/Value.java, values/*.java, and what
    Node.java, NodeSpan.java and Span.java add to Value.  Values are those of Model_JCodec.v; None is
    NullValue.INSTANCE.  Strings are UTF-16 units; null is None.
    Exceptions as in Model_JCodec.v; NumberFormatException is ValueError.
    Of the class library as documented for Java 8: Integer.parseInt, Long.parseLong, String.valueOf,
    Boolean.parseBoolean, Base64, the casts between int, long and double.
    Simplifications: Double.parseDouble is not modelled; the public field EPS of DoubleValue keeps its first
    value; an extension of type doc is a DocumentValue, as MsgpackCodec.java 463-464, 737-740 make it. *)
From Verif Require Import PyBase Model_Text Model_Heap Model_Layer Model_Types Model_Msgpack Model_Printout Model_JUnits Model_JText Model_JCodec.
Local Open Scope Z_scope.

(** ** numbers as text *)
(** Character.digit(c, 10): the characters 0 of the decimal digits of the Basic Multilingual Plane in Unicode 6.2 (Value.java 31, 35) *)
Definition decimal_zeros : list N :=
  [0x30; 0x660; 0x6F0; 0x7C0; 0x966; 0x9E6; 0xA66; 0xAE6; 0xB66; 0xBE6; 0xC66; 0xCE6; 0xD66; 0xE50; 0xED0; 0xF20; 0x1040; 0x1090; 0x17E0; 0x1810;
   0x1946; 0x19D0; 0x1A80; 0x1A90; 0x1B50; 0x1BB0; 0x1C40; 0x1C50; 0xA620; 0xA8D0; 0xA900; 0xA9D0; 0xAA50; 0xABF0; 0xFF10]%N.
(** Character.digit(c, 10), -1 if it is none (Value.java 31, 35) *)
Definition java_digit (c : N) : Z :=
  match find (fun z => (z <=? c)%N && (c <? z + 10)%N) decimal_zeros with Some z => Z.of_N (c - z) | None => -1 end.
(** the loop of Integer.parseInt and Long.parseLong, which collects the negated number (Value.java 31, 35) *)
Fixpoint parse_loop (limit result : Z) (x : list N) : res Z :=
  match x with
  | [] => Ok result
  | c :: r =>
      let d := java_digit c in
      if d <? 0 then Err ValueError
      else if result <? Z.quot limit 10 then Err ValueError
      else if result * 10 <? limit + d then Err ValueError
      else parse_loop limit (result * 10 - d) r
  end.
(** Integer.parseInt and Long.parseLong: m is 2^31 or 2^63 (Value.java 30-36) *)
Definition java_parse (m : Z) (x : option (list N)) : res Z :=
  match x with
  | None | Some [] => Err ValueError
  | Some (c :: r) =>
      if (c <? 48)%N then
        if (c =? 45)%N then match r with [] => Err ValueError | _ => parse_loop (- m) 0 r end
        else if negb (c =? 43)%N then Err ValueError
        else match r with [] => Err ValueError | _ => let* v := parse_loop (- (m - 1)) 0 r in Ok (- v) end
      else let* v := parse_loop (- (m - 1)) 0 (c :: r) in Ok (- v)
  end.
(** Boolean.parseBoolean: "true" in any case (Value.java 26-28) *)
Definition parse_bool (x : option (list N)) : bool :=
  match x with
  | None => false
  | Some x => str_eqb (map (fun c => if (65 <=? c)%N && (c <=? 90)%N then (c + 32)%N else c) x) (s "true")
  end.

(** ** bytes as text *)
(** the alphabet of Base64.getEncoder() (values/BinaryValue.java 38-40) *)
Definition b64_alphabet : list N := s "ABCDEFGHIJKLMNOPQRSTUVWXYZabcdefghijklmnopqrstuvwxyz0123456789+/".
(** values/BinaryValue.java 38-40 *)
Definition b64_char (k : N) : N := nth (N.to_nat k) b64_alphabet 0%N.
(** Base64.getEncoder().encodeToString (values/BinaryValue.java 38-40, values/ExtensionValue.java 22-25) *)
Fixpoint base64 (x : list N) : list N :=
  match x with
  | a :: b :: c :: r => b64_char (a / 4) :: b64_char ((a mod 4) * 16 + b / 16) :: b64_char ((b mod 16) * 4 + c / 64) :: b64_char (c mod 64) :: base64 r
  | [a; b] => [b64_char (a / 4); b64_char ((a mod 4) * 16 + b / 16); b64_char ((b mod 16) * 4); 61]
  | [a] => [b64_char (a / 4); b64_char ((a mod 4) * 16); 61; 61]
  | [] => []
  end%N.

(** ** casts *)
(** (int) of a long (values/LongValue.java 47-50) *)
Definition to_int (i : Z) : Z := (i + 2 ^ 31) mod 2 ^ 32 - 2 ^ 31.
(** double of an int or a long, rounding half to even: the bits (values/IntValue.java 56-59, values/LongValue.java 57-60) *)
Definition to_double (i : Z) : N :=
  if i =? 0 then 0%N else
  let a := Z.abs i in
  let k := Z.log2 a in
  let q := if k <=? 52 then a * 2 ^ (52 - k) else half_even a (k - 52) in
  Z.to_N ((if i <? 0 then 2 ^ 63 else 0) + (k + 1023) * 2 ^ 52 + (q - 2 ^ 52)).
(** (int) and (long) of a double: towards zero, and to the nearest number there is; m is 2^31 or 2^63 (values/DoubleValue.java 48-56) *)
Definition of_double (m : Z) (b : N) : Z :=
  let v := Z.of_N b in
  let neg := 2 ^ 63 <=? v in
  let e := (v / 2 ^ 52) mod 2048 in
  let f := v mod 2 ^ 52 in
  if e =? 2047 then (if negb (f =? 0) then 0 else if neg then - m else m - 1) else
  let t := if e =? 0 then 0 else if 1075 <=? e then (2 ^ 52 + f) * 2 ^ (e - 1075) else (2 ^ 52 + f) / 2 ^ (1075 - e) in
  Z.max (- m) (Z.min (m - 1) (if neg then - t else t)).
(** 1e-12 (values/DoubleValue.java 27) *)
Definition eps : N := 0x3D719799812DEA11.
(** Math.abs(value) - EPS <= 0.0: the difference of two doubles is not rounded to zero; NaN compares false (values/DoubleValue.java 43-46) *)
Definition double_bool (b : N) : bool := (Z.of_N b mod 2 ^ 63 <=? Z.of_N eps).

(** ** values *)
(** the field text of a node (NodeSpan.java 48-51) *)
Definition node_text (j : jdoc) (l : pystr) (i : nat) : option jv :=
  match dget (jd_layers j) l with Some (_, rows) => match nth_error rows i with Some row => dget row (s "text") | None => None end | None => None end.
(** spanValue of a value that is there (Value.java 54-56, Span.java 68-71) *)
Definition the_span (v : jv) : res (pystr * Z * Z) := match v with JSpan t a b => Ok (t, a, b) | _ => Err NotImplementedError end.
(** Span.java 63-66, 148-150, Text.java 207-210 *)
Definition span_text (j : jdoc) (t : pystr) (a b : Z) : res (list N) :=
  match dget (jd_texts j) t with Some x => java_sub x a b | None => Err AttributeError end.
(** layer, number sign and position (Node.java 148-151, NodeSpan.java 58-60) *)
Definition node_string (l : pystr) (i : nat) : list N := utf16 l ++ s "#" ++ str_int (Z.of_nat i).
(** NodeSpan.java 47-62: stringValue *)
Definition nodespan_string (j : jdoc) (l : pystr) (a b : nat) : res (list N) :=
  let other := Ok (s "NodeSpan(left=" ++ node_string l a ++ s ", right=" ++ node_string l b ++ s ")") in
  match node_text j l a, node_text j l b with
  | Some x, Some y =>
      match dget (jd_layers j) l with
      | None => Err AttributeError
      | Some (fs, _) =>
          match dget fs (s "text") with
          | None => Err AttributeError
          | Some t => match ty_name t with
                      | JT TSpan => let* p := the_span x in let* q := the_span y in span_text j (fst (fst p)) (snd (fst p)) (snd q)
                      | _ => other
                      end
          end
      end
  | _, _ => other
  end.
(** values/NodeArrayValue.java 54-71 *)
Definition nodes_string (l : pystr) (is : list nat) : list N :=
  match is with
  | [] => s "[]"
  | i :: r => utf16 l ++ s "[" ++ str_int (Z.of_nat i) ++ flat_map (fun k => s "," ++ str_int (Z.of_nat k)) r ++ s "]"
  end.
(** stringValue (values/*.java; values/DocumentValue.java 41-44: Objects.toString of the main text) *)
Definition string_value (j : jdoc) (v : option jv) : res (option (list N)) :=
  match v with
  | None => Ok (Some [])
  | Some (JInt i) | Some (JLong i) => Ok (Some (str_int i))
  | Some (JDouble _) => Ok None
  | Some (JBool b) => Ok (Some (if b then s "true" else s "false"))
  | Some (JStr x) => Ok (Some (utf16 x))
  | Some (JBin x) => Ok (Some (base64 x))
  | Some (JExt y x) =>
      if str_eqb y (s "doc")
      then let* d := java_decode x in Ok (Some (match dget (jd_texts d) (s "main") with Some t => t | None => s "null" end))
      else Ok (Some (utf16 y ++ s ":" ++ base64 x))
  | Some (JSpan t a b) => let* x := span_text j t a b in Ok (Some x)
  | Some (JNode l i) => Ok (Some (node_string l i))
  | Some (JNodes l is) => Ok (Some (nodes_string l is))
  | Some (JNodeSpan l a b) => let* x := nodespan_string j l a b in Ok (Some x)
  | Some (JHold _) | Some (JHoldSpan _ _) => Err Unmodelled
  end.
(** intValue (Value.java 30-32, values/IntValue.java 46-49, LongValue.java 46-49, DoubleValue.java 48-51, BoolValue.java 43-46, NullValue.java 43-46) *)
Definition int_value (j : jdoc) (v : option jv) : res Z :=
  match v with
  | None => Ok 0
  | Some (JInt i) => Ok i
  | Some (JLong i) => Ok (to_int i)
  | Some (JDouble b) => Ok (of_double (2 ^ 31) b)
  | Some (JBool b) => Ok (if b then 1 else 0)
  | _ => let* x := string_value j v in java_parse (2 ^ 31) x
  end.
(** longValue (Value.java 34-36, values/IntValue.java 51-54, LongValue.java 51-54, DoubleValue.java 53-56, BoolValue.java 48-51, NullValue.java 48-51) *)
Definition long_value (j : jdoc) (v : option jv) : res Z :=
  match v with
  | None => Ok 0
  | Some (JInt i) | Some (JLong i) => Ok i
  | Some (JDouble b) => Ok (of_double (2 ^ 63) b)
  | Some (JBool b) => Ok (if b then 1 else 0)
  | _ => let* x := string_value j v in java_parse (2 ^ 63) x
  end.
(** doubleValue (Value.java 38-40, values/IntValue.java 56-59, LongValue.java 56-59, DoubleValue.java 58-61, BoolValue.java 53-56, NullValue.java 53-56) *)
Definition double_value (j : jdoc) (v : option jv) : res N :=
  match v with
  | None => Ok 0%N
  | Some (JInt i) | Some (JLong i) => Ok (to_double i)
  | Some (JDouble b) => Ok b
  | Some (JBool b) => Ok (if b then to_double 1 else 0%N)
  | _ => let* x := string_value j v in Err Unmodelled
  end.
(** boolValue (Value.java 26-28, values/IntValue.java 41-44, LongValue.java 41-44, DoubleValue.java 43-46, NullValue.java 38-41) *)
Definition bool_value (j : jdoc) (v : option jv) : res bool :=
  match v with
  | None => Ok false
  | Some (JInt i) | Some (JLong i) => Ok (negb (i =? 0))
  | Some (JDouble b) => Ok (double_bool b)
  | _ => let* x := string_value j v in Ok (parse_bool x)
  end.
(** binaryValue (Value.java 42-44, values/BinaryValue.java 42-44, ExtensionValue.java 18-20, NullValue.java 58-61) *)
Definition binary_value (v : option jv) : res (list N) :=
  match v with
  | None => Ok []
  | Some (JBin x) | Some (JExt _ x) => Ok x
  | _ => Err NotImplementedError
  end.
(** nodeValue (Value.java 46-48, Node.java 153-156, values/NodeArrayValue.java 73-79, NullValue.java 63-66): layer and position *)
Definition node_value (v : option jv) : res (pystr * nat) :=
  match v with
  | None => Err AttributeError
  | Some (JNode l i) | Some (JNodes l [i]) => Ok (l, i)
  | _ => Err NotImplementedError
  end.
(** nodeArrayValue (Value.java 50-52, values/NodeArrayValue.java 81-84, NullValue.java 68-71, NodeSpan.java 42-45 with Layer.java 213-230) *)
Definition nodes_value (v : option jv) : res (list (pystr * nat)) :=
  match v with
  | None => Ok []
  | Some (JNodes l is) => Ok (map (pair l) is)
  | Some (JNodeSpan l a b) => if (b <? a)%nat then Err DataError else Ok (map (pair l) (seq a (S b - a)))
  | _ => Err NotImplementedError
  end.
(** spanValue (Value.java 54-56, Span.java 68-71, values/NullValue.java 73-76) *)
Definition span_value (v : option jv) : res (pystr * Z * Z) := match v with None => Err AttributeError | Some v => the_span v end.
(** nodeSpanValue (Value.java 58, NodeSpan.java 64-67, values/NullValue.java 78-81) *)
Definition nodespan_value (v : option jv) : res (pystr * nat * nat) :=
  match v with None => Err AttributeError | Some (JNodeSpan l a b) => Ok (l, a, b) | _ => Err NotImplementedError end.
(** Node.java 271-273: get of a field *)
Definition field_value (row : dict jv) (f : pystr) : option jv := dget row f.
