(** Python's int(), float(), bool(), str() and bytes(), which the encoders apply to the values of plain fields
    (py/docria/codec.py 48-54).
    Simplifications: str() of a float, of an int with more than 4300 digits and of objects that print as tables or with their address, float() of a string, int() of a string with
    a character beyond ASCII or with more than 4300 digits, and conversions of unknown objects are not modelled; memory is unlimited. *)
From Verif Require Import PyBase Model_Text Model_Heap Model_Layer Model_Types Model_Query.
From Verif Require Model_Printout.
Local Open Scope Z_scope.

(** m * 2^e without its fraction (int() of a float, codec.py 49-50) *)
Definition truncate (m e : Z) : Z := if 0 <=? e then m * 2 ^ e else Z.quot m (2 ^ (- e)).

(** int() of ASCII text: spaces, a sign, digits with single underscores between them, spaces (codec.py 49-50) *)
Definition is_blank (c : N) : bool := ((9 <=? c)%N && (c <=? 13)%N) || (c =? 32)%N.
(** codec.py 49-50 *)
Definition is_digit (c : N) : bool := (48 <=? c)%N && (c <=? 57)%N.
(** codec.py 49-50 *)
Fixpoint drop_blanks (x : pystr) : pystr := match x with c :: r => if is_blank c then drop_blanks r else x | [] => [] end.
(** the digits of x up to the first other character, which is returned with what follows; [after] tells if the last one was a digit (codec.py 49-50) *)
Fixpoint read_digits (after : bool) (x : pystr) (acc : list N) : option (list N * pystr) :=
  match x with
  | c :: r =>
      if is_digit c then read_digits true r (acc ++ [(c - 48)%N])
      else if (c =? 95)%N then (if after then read_digits false r acc else None)
      else if after then Some (acc, x) else None
  | [] => if after then Some (acc, []) else None
  end.
(** codec.py 49-50 *)
Definition decimal (ds : list N) : Z := fold_left (fun k d => 10 * k + Z.of_N d) ds 0.
(** codec.py 49-50 *)
Definition int_text (x : pystr) : res Z :=
  let y := drop_blanks x in
  let '(neg, z) := match y with c :: r => if (c =? 45)%N then (true, r) else if (c =? 43)%N then (false, r) else (false, y) | [] => (false, y) end in
  match read_digits false z [] with
  | None => Err ValueError
  | Some (ds, rest) =>
      match drop_blanks rest with
      | [] => if 4300 <? zlen ds then Err Unmodelled else Ok (if neg then - decimal ds else decimal ds)
      | _ :: _ => Err ValueError
      end
  end.
(** codec.py 49-50 *)
Definition ascii (x : list N) : bool := forallb (fun c => (c <? 128)%N) x.
(** int(v) (codec.py 49-50) *)
Definition py_int (v : value) : res Z :=
  match v with
  | VBool b => Ok (if b then 1 else 0)
  | VInt i => Ok i
  | VFloat b => match dbl_of b with DNan => Err ValueError | DInf _ => Err OverflowError | DFin m e => Ok (truncate m e) end
  | VStr x => if ascii x then int_text x else Err Unmodelled
  | VBytes x => if ascii x then int_text x else Err ValueError
  | VOther _ => Err Unmodelled
  | _ => Err TypeError
  end.

(** float(i): the nearest double, the even one of two; its 64 bits *)
Definition float_of_int (i : Z) : res N :=
  let a := Z.abs i in
  if a =? 0 then Ok 0%N else
  let k := Z.log2 a in
  let q := if k <=? 52 then a * 2 ^ (52 - k)
           else let c := 2 ^ (k - 52) in
                let q := a / c in let r := a mod c in
                if (c <? 2 * r) || ((2 * r =? c) && Z.odd q) then q + 1 else q in
  let b := (k + 1022) * 2 ^ 52 + q in
  if 2047 * 2 ^ 52 <=? b then Err OverflowError else Ok (Z.to_N (if i <? 0 then b + 2 ^ 63 else b)).
(** float(v) (codec.py 51) *)
Definition py_float (v : value) : res N :=
  match v with
  | VBool b => float_of_int (if b then 1 else 0)
  | VInt i => float_of_int i
  | VFloat b => Ok b
  | VStr _ | VBytes _ | VOther _ => Err Unmodelled
  | _ => Err TypeError
  end.

(** len(v), for objects that have one: dict, str, bytes, list; model.py 444-448 (NodeSpan), 600-601 (TextSpan); a negative length is an error *)
Definition py_len (h : heap) (v : value) : option (res Z) :=
  match v with
  | VStr x => Some (Ok (zlen x))
  | VBytes x => Some (Ok (zlen x))
  | VSpan _ _ a b => Some (if b - a <? 0 then Err ValueError else Ok (b - a))
  | VNode n => Some (Ok (zlen (n_fieldsof h n)))
  | VNodeSpan a b => Some (nodespan_len h a b)
  | VNodeList l => Some (Ok (zlen l))
  | _ => None
  end.
(** bool(v); an object without __len__ and __bool__ is true (codec.py 52) *)
Definition py_bool (h : heap) (v : value) : res bool :=
  match py_len h v with
  | Some r => let* k := r in Ok (negb (k =? 0))
  | None =>
      match v with
      | VNone => Ok false
      | VBool b => Ok b
      | VInt i => Ok (negb (i =? 0))
      | VFloat b => Ok (match dbl_of b with DFin m _ => negb (m =? 0) | _ => true end)
      | VExt _ _ => Ok true
      | _ => Err Unmodelled
      end
  end.

(** repr of bytes (str() of bytes, codec.py 53) *)
Definition hex_digit (k : N) : N := if (k <? 10)%N then (48 + k)%N else (87 + k)%N.
(** str() of bytes, codec.py 53 *)
Definition byte_text (quote : N) (c : N) : pystr :=
  if (c =? quote)%N || (c =? 92)%N then [92%N; c]
  else if (c =? 9)%N then s "\t" else if (c =? 10)%N then s "\n" else if (c =? 13)%N then s "\r"
  else if (c <? 32)%N || (127 <=? c)%N then s "\x" ++ [hex_digit (c / 16); hex_digit (c mod 16)]
  else [c].
(** str() of bytes, codec.py 53 *)
Definition bytes_repr (x : list N) : pystr :=
  let quote := if existsb (N.eqb 39) x && negb (existsb (N.eqb 34) x) then 34%N else 39%N in
  s "b" ++ [quote] ++ flat_map (byte_text quote) x ++ [quote].
(** str(v); model.py 743-744 (TextSpan) *)
Definition py_str (v : value) : res pystr :=
  match v with
  | VNone => Ok (s "None")
  | VBool b => Ok (if b then s "True" else s "False")
  | VInt i => Ok (Model_Printout.str_int i)
  | VStr x => Ok x
  | VBytes x => Ok (bytes_repr x)
  | VSpan _ t a b => Ok (span_str (mkSpan t a b))
  | _ => Err Unmodelled
  end.

(** bytes(i): that many zero bytes (codec.py 54) *)
Definition zero_bytes (i : Z) : res (list N) :=
  if (i <? - 2 ^ 63) || (2 ^ 63 <=? i) then Err OverflowError
  else if i <? 0 then Err ValueError
  else Ok (repeat 0%N (Z.to_nat i)).
(** bytes(v): of other objects that can be iterated, their elements, which must be numbers; iteration: dict by its keys,
    model.py 411-413 (NodeSpan), 740-741 (TextSpan, by its characters) *)
Definition py_bytes (h : heap) (v : value) : res (list N) :=
  match v with
  | VBool b => zero_bytes (if b then 1 else 0)
  | VInt i => zero_bytes i
  | VBytes x => Ok x
  | VSpan _ t a b => if b - a <? 0 then Err ValueError else match span_str (mkSpan t a b) with [] => Ok [] | _ => Err TypeError end
  | VNode n => match n_fieldsof h n with [] => Ok [] | _ => Err TypeError end
  | VNodeSpan a b => let* l := nodespan_iter h a b in match l with [] => Ok [] | _ => Err TypeError end
  | VNodeList l => match l with [] => Ok [] | Some _ :: _ => Err TypeError | None :: _ => Err Unmodelled end
  | VOther _ => Err Unmodelled
  | _ => Err TypeError
  end.
