(** repr() of plain values, predicates, data types, text spans and layers
    (query.py 46-47, 58-59, 69-70, 81-82, 93-163; model.py 732-738, 946-950, 1662-1663). *)
From Verif Require Import PyBase Model_Text Model_Heap Model_Types Model_Printout Model_Query Model_Coerce Model_Codec.
Local Open Scope Z_scope.

(** k hexadecimal digits of c (repr() as called by query.py 94 and model.py 737; CPython unicode_repr) *)
Fixpoint hex_digits (k : nat) (c : N) : pystr := match k with O => [] | S k => hex_digits k (c / 16)%N ++ [Model_Coerce.hex_digit (c mod 16)%N] end.
Section Repr.
(** str.isprintable of a character above 127 *)
Variable printable : N -> bool.
(** CPython unicode_repr (query.py 94, model.py 737) *)
Definition char_repr (quote c : N) : pystr :=
  if (c =? quote)%N || (c =? 92)%N then [92%N; c]
  else if (c =? 9)%N then s "\t" else if (c =? 10)%N then s "\n" else if (c =? 13)%N then s "\r"
  else if (c <? 32)%N || (c =? 127)%N then s "\x" ++ hex_digits 2 c
  else if (c <? 127)%N then [c]
  else if printable c then [c]
  else if (c <? 256)%N then s "\x" ++ hex_digits 2 c
  else if (c <? 65536)%N then s "\u" ++ hex_digits 4 c
  else s "\U" ++ hex_digits 8 c.
(** CPython unicode_repr (query.py 94, model.py 737) *)
Definition str_repr (x : pystr) : pystr :=
  let quote := if existsb (N.eqb 39) x && negb (existsb (N.eqb 34) x) then 34%N else 39%N in [quote] ++ flat_map (char_repr quote) x ++ [quote].
(** repr() of a value (query.py 94-163, model.py 949); an int of more than 4300 digits is refused by CPython *)
Definition value_repr (v : value) : res pystr :=
  match v with
  | VNone => Ok (s "None")
  | VBool b => Ok (if b then s "True" else s "False")
  | VInt i => if 4300 <? zlen (str_int (Z.abs i)) then Err ValueError else Ok (str_int i)
  | VStr x => Ok (str_repr x)
  | VBytes x => Ok (bytes_repr x)
  | _ => Err Unmodelled
  end.
(** query.py 93-163; the sign shown for >= is > (query.py 153-154) *)
Definition compare_repr (f sign : pystr) (v : value) : res pystr :=
  let* t := value_repr v in Ok (s "({" ++ f ++ s "} " ++ sign ++ s " " ++ t ++ s ")").
(** query.py 46-47, 58-59, 69-70, 81-82, 93-163; functions and sets have no repr that is the same in every run *)
Fixpoint pred_repr (p : pred) : res pystr :=
  match p with
  | PEq f v => compare_repr f (s "==") v
  | PNeq f v => compare_repr f (s "!=") v
  | POrd o f v => compare_repr f (match o with OLt => s "<" | OLe => s "<=" | OGt => s ">" | OGe => s ">" end) v
  | PAny _ _ | PFields _ _ | PField _ _ | PFun _ => Err Unmodelled
  | PAnd p q => let* a := pred_repr p in let* b := pred_repr q in Ok (s "And(" ++ a ++ s ", " ++ b ++ s ")")
  | POr p q => let* a := pred_repr p in let* b := pred_repr q in Ok (s "Or(" ++ a ++ s ", " ++ b ++ s ")")
  | PNot p => let* a := pred_repr p in Ok (s "Not(" ++ a ++ s ")")
  end.
(** repr() of a dictionary with strings as keys (model.py 949) *)
Fixpoint items_repr (d : dict value) : res pystr :=
  match d with
  | [] => Ok []
  | (k, v) :: r =>
      let* t := value_repr v in
      let* q := items_repr r in
      Ok (str_repr k ++ s ": " ++ t ++ (match r with [] => [] | _ => s ", " end) ++ q)
  end.
(** model.py 946-950 *)
Definition dtype_repr (t : dtype) : res pystr :=
  let* o := items_repr (dt_opts t) in
  Ok (s "DataType(type=" ++ match type_string (dt_name t) with Ok x => x | Err _ => s "DataTypeEnum.UNKNOWN" end ++ s ", options={" ++ o ++ s "})").
(** model.py 732-738 *)
Definition span_text_repr (name text : pystr) (a b : Z) : pystr :=
  s "span(" ++ name ++ s "[" ++ str_int a ++ s ":" ++ str_int b ++ s "]) = " ++ str_repr (span_str (mkSpan text a b)).
(** model.py 1662-1663 *)
Definition layer_repr (h : heap) (l : lid) : pystr := s "Layer(" ++ l_nameof h l ++ s ", N=" ++ str_int (l_numof h l) ++ s ")".
End Repr.
