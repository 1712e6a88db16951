(** JsonCodec.encode and decode (codec.py 178-204): the text of JSON.  json.dumps and json.loads are those of CPython with their default
    arguments.  [frepr] is float.__repr__ for a finite float (given by its 64 bits), [fparse] is float() of a text.
    Simplifications: no limit on the number of digits of an int or on the depth of nesting. *)
From Verif Require Import PyBase Model_Text Model_Heap Model_Layer Model_Types Model_Msgpack Model_Document Model_Codec Model_Json.
From Verif Require Model_Printout.
Local Open Scope N_scope.

(** ** json.dumps *)
(** json.dumps, codec.py 179-181 *)
Definition hexd (n : N) : N := if n <? 10 then 48 + n else 87 + n.
(** json.dumps, codec.py 179-181 *)
Definition hex4 (c : N) : pystr := [hexd (c / 4096 mod 16); hexd (c / 256 mod 16); hexd (c / 16 mod 16); hexd (c mod 16)].
(** json.dumps, codec.py 179-181 *)
Definition uesc (c : N) : pystr := 92 :: 117 :: hex4 c.
(** json.encoder: py_encode_basestring_ascii (json.dumps, codec.py 179-181) *)
Definition esc_char (c : N) : pystr :=
  if c =? 34 then [92; 34] else if c =? 92 then [92; 92]
  else if c =? 10 then [92; 110] else if c =? 13 then [92; 114] else if c =? 9 then [92; 116] else if c =? 12 then [92; 102] else if c =? 8 then [92; 98]
  else if (32 <=? c) && (c <=? 126) then [c]
  else if c <? 65536 then uesc c
  else uesc (55296 + (c - 65536) / 1024 mod 1024) ++ uesc (56320 + (c - 65536) mod 1024).
(** json.dumps, codec.py 179-181 *)
Definition quote (x : pystr) : pystr := 34 :: flat_map esc_char x ++ [34].
(** json.dumps, codec.py 179-181 *)
Definition pos_inf : N := 9218868437227405312.
(** json.dumps, codec.py 179-181 *)
Definition neg_inf : N := 18442240474082181120.
(** json.dumps, codec.py 179-181 *)
Definition the_nan : N := 9221120237041090560.
(** exponent all ones, mantissa not zero (json.dumps, codec.py 179-181) *)
Definition is_nan (b : N) : bool := ((b / 2 ^ 52) mod 2048 =? 2047) && negb (b mod 2 ^ 52 =? 0).
(** json.dumps, codec.py 179-181 *)
Definition float_json (frepr : N -> pystr) (b : N) : pystr :=
  if is_nan b then s "NaN" else if b =? pos_inf then s "Infinity" else if b =? neg_inf then s "-Infinity" else frepr b.
(** json.dumps, codec.py 179-181 *)
Definition join_list (l : list pystr) : pystr := Model_Printout.join (s ", ") l.
(** f for each element in order (json.dumps, codec.py 179-181) *)
Definition each {A B} (f : A -> res B) := fix go (l : list A) : res (list B) :=
  match l with [] => Ok [] | x :: r => let* y := f x in let* ys := go r in Ok (y :: ys) end.
(** json.dumps, codec.py 179-181 *)
Fixpoint dumps (frepr : N -> pystr) (o : mobj) : res pystr :=
  match o with
  | MNil => Ok (s "null")
  | MBool b => Ok (if b then s "true" else s "false")
  | MInt i => Ok (Model_Printout.str_int i)
  | MFloat b => Ok (float_json frepr b)
  | MStr x => Ok (quote x)
  | MBin _ => Err TypeError
  | MArr l => let* xs := each (dumps frepr) l in Ok (91 :: join_list xs ++ [93])
  | MMap d => let* xs := each (fun kv => let* v := dumps frepr (snd kv) in Ok (quote (fst kv) ++ s ": " ++ v)) d in Ok (123 :: join_list xs ++ [125])
  end.

(** ** json.loads; a JSONDecodeError is a ValueError *)
(** json.loads, codec.py 196-205 *)
Definition is_ws (c : N) : bool := (c =? 32) || (c =? 9) || (c =? 10) || (c =? 13).
(** json.loads, codec.py 196-205 *)
Fixpoint skip_ws (x : pystr) : pystr := match x with c :: r => if is_ws c then skip_ws r else x | [] => [] end.
(** json.loads, codec.py 196-205 *)
Definition hexval (c : N) : option N :=
  if (48 <=? c) && (c <=? 57) then Some (c - 48) else if (97 <=? c) && (c <=? 102) then Some (c - 87) else if (65 <=? c) && (c <=? 70) then Some (c - 55) else None.
(** json.loads, codec.py 196-205 *)
Definition read_hex4 (x : pystr) : option (N * pystr) :=
  match x with
  | a :: b :: c :: d :: r =>
      match hexval a, hexval b, hexval c, hexval d with
      | Some a, Some b, Some c, Some d => Some (4096 * a + 256 * b + 16 * c + d, r)
      | _, _, _, _ => None
      end
  | _ => None
  end.
(** json.loads, codec.py 196-205 *)
Definition is_high (u : N) : bool := (55296 <=? u) && (u <=? 56319).
(** json.loads, codec.py 196-205 *)
Definition is_low (u : N) : bool := (56320 <=? u) && (u <=? 57343).
(** json.loads, codec.py 196-205 *)
Definition read_uesc (x : pystr) : option (N * pystr) :=
  match x with a :: b :: r => if (a =? 92) && (b =? 117) then read_hex4 r else None | _ => None end.
(** the second half of a surrogate pair (json.loads, codec.py 196-205) *)
Definition second_half (u : N) (x : pystr) : option (N * pystr) :=
  if is_high u then match read_uesc x with Some (v, r) => if is_low v then Some (v, r) else None | None => None end else None.
(** json.loads, codec.py 196-205 *)
Definition simple_escape (e : N) : option N :=
  if e =? 34 then Some 34 else if e =? 92 then Some 92 else if e =? 47 then Some 47 else if e =? 98 then Some 8
  else if e =? 102 then Some 12 else if e =? 110 then Some 10 else if e =? 114 then Some 13 else if e =? 116 then Some 9 else None.
(** json.loads, codec.py 196-205 *)
Definition push (c : N) (r : res (pystr * pystr)) : res (pystr * pystr) := let* (v, x) := r in Ok (c :: v, x).
(** _json.c scanstring (strict), after the opening quote (json.loads, codec.py 196-205) *)
Fixpoint scan (f : nat) (x : pystr) : res (pystr * pystr) :=
  match f with
  | O => Err OutOfFuel
  | S f =>
      match x with
      | [] => Err ValueError
      | c :: r =>
          if c =? 34 then Ok ([], r)
          else if c =? 92 then
            match r with
            | [] => Err ValueError
            | e :: r' =>
                if e =? 117 then
                  match read_hex4 r' with
                  | None => Err ValueError
                  | Some (u, r1) =>
                      match second_half u r1 with
                      | Some (v, r2) => push (65536 + 1024 * (u - 55296) + (v - 56320)) (scan f r2)
                      | None => push u (scan f r1)
                      end
                  end
                else match simple_escape e with Some d => push d (scan f r') | None => Err ValueError end
            end
          else if c <? 32 then Err ValueError
          else push c (scan f r)
      end
  end.
(** json.loads, codec.py 196-205 *)
Definition scanstring (x : pystr) : res (pystr * pystr) := scan (S (length x)) x.

(** json.loads, codec.py 196-205 *)
Definition is_dig (c : N) : bool := (48 <=? c) && (c <=? 57).
(** json.loads, codec.py 196-205 *)
Fixpoint take_digits (x : pystr) : pystr * pystr :=
  match x with c :: r => if is_dig c then let (a, b) := take_digits r in (c :: a, b) else ([], x) | [] => ([], []) end.
(** the parts of (-?(?:0|[1-9]\d* ))(\.\d+)?([eE][-+]?\d+)? : sign, digits, fraction, exponent *)
Definition take_sign (x : pystr) : pystr * pystr := match x with c :: r => if c =? 45 then ([45], r) else ([], x) | [] => ([], []) end.
Definition take_int (x : pystr) : pystr * pystr := match x with c :: r => if c =? 48 then ([48], r) else take_digits x | [] => ([], []) end.
Definition take_frac (x : pystr) : pystr * pystr :=
  match x with
  | c :: r => if c =? 46 then match take_digits r with ([], _) => ([], x) | (ds, r1) => (c :: ds, r1) end else ([], x)
  | [] => ([], [])
  end.
Definition take_esign (x : pystr) : pystr * pystr := match x with c :: r => if (c =? 45) || (c =? 43) then ([c], r) else ([], x) | [] => ([], []) end.
Definition take_exp (x : pystr) : pystr * pystr :=
  match x with
  | c :: r => if (c =? 101) || (c =? 69)
              then let (sg, r1) := take_esign r in match take_digits r1 with ([], _) => ([], x) | (ds, r2) => (c :: sg ++ ds, r2) end
              else ([], x)
  | [] => ([], [])
  end.
(** int() of digits (json.loads, codec.py 196-205) *)
Definition read_int (x : pystr) : Z := fold_left (fun a c => 10 * a + (Z.of_N c - 48))%Z x 0%Z.
(** json.loads, codec.py 196-205 *)
Definition number (fparse : pystr -> N) (x : pystr) : res (mobj * pystr) :=
  let (sg, r) := take_sign x in
  let (ds, r1) := take_int r in
  match ds with
  | [] => Err ValueError
  | _ => let (fr, r2) := take_frac r1 in
         let (ex, r3) := take_exp r2 in
         Ok (match fr, ex with
             | [], [] => MInt (match sg with [] => read_int ds | _ => (- read_int ds)%Z end)
             | _, _ => MFloat (fparse (sg ++ ds ++ fr ++ ex))
             end, r3)
  end.
(** json.loads, codec.py 196-205 *)
Fixpoint after (p x : pystr) : option pystr :=
  match p, x with
  | [], _ => Some x
  | a :: p, b :: x => if a =? b then after p x else None
  | _ :: _, [] => None
  end.
(** _json.c scan_once: the constants, else a number (json.loads, codec.py 196-205) *)
Fixpoint constant (l : list (pystr * mobj)) (x : pystr) : option (mobj * pystr) :=
  match l with
  | [] => None
  | (p, o) :: l => match after p x with Some r => Some (o, r) | None => constant l x end
  end.
(** json.loads, codec.py 196-205 *)
Definition constants : list (pystr * mobj) :=
  [(s "null", MNil); (s "true", MBool true); (s "false", MBool false); (s "NaN", MFloat the_nan); (s "Infinity", MFloat pos_inf); (s "-Infinity", MFloat neg_inf)].
(** the dict of the pairs read (json.loads, codec.py 196-205) *)
Definition dict_of (l : list (pystr * mobj)) : dict mobj := fold_left (fun d kv => dset d (fst kv) (snd kv)) l [].
(** json.loads, codec.py 196-205 *)
Fixpoint jvalue (fparse : pystr -> N) (f : nat) (x : pystr) : res (mobj * pystr) :=
  match f with
  | O => Err OutOfFuel
  | S f =>
      match x with
      | [] => Err ValueError
      | c :: r =>
          if c =? 34 then let* (v, r1) := scanstring r in Ok (MStr v, r1)
          else if c =? 91 then
            match skip_ws r with
            | d :: r1 => if d =? 93 then Ok (MArr [], r1) else let* (l, r2) := jelems fparse f (d :: r1) in Ok (MArr l, r2)
            | [] => Err ValueError
            end
          else if c =? 123 then
            match skip_ws r with
            | d :: r1 => if d =? 125 then Ok (MMap [], r1) else let* (l, r2) := jmembers fparse f (d :: r1) in Ok (MMap (dict_of l), r2)
            | [] => Err ValueError
            end
          else match constant constants x with
               | Some p => Ok p
               | None => number fparse x
               end
      end
  end
with jelems (fparse : pystr -> N) (f : nat) (x : pystr) : res (list mobj * pystr) :=
  match f with
  | O => Err OutOfFuel
  | S f =>
      let* (v, r) := jvalue fparse f x in
      match skip_ws r with
      | c :: r1 => if c =? 44 then let* (l, r2) := jelems fparse f (skip_ws r1) in Ok (v :: l, r2)
                   else if c =? 93 then Ok ([v], r1) else Err ValueError
      | [] => Err ValueError
      end
  end
with jmembers (fparse : pystr -> N) (f : nat) (x : pystr) : res (list (pystr * mobj) * pystr) :=
  match f with
  | O => Err OutOfFuel
  | S f =>
      match x with
      | [] => Err ValueError
      | q :: r =>
          if q =? 34 then
            let* (k, r1) := scanstring r in
            match skip_ws r1 with
            | [] => Err ValueError
            | c :: r2 =>
                if c =? 58 then
                  let* (v, r3) := jvalue fparse f (skip_ws r2) in
                  match skip_ws r3 with
                  | e :: r4 => if e =? 44 then let* (l, r5) := jmembers fparse f (skip_ws r4) in Ok ((k, v) :: l, r5)
                               else if e =? 125 then Ok ([(k, v)], r4) else Err ValueError
                  | [] => Err ValueError
                  end
                else Err ValueError
            end
          else Err ValueError
      end
  end.
(** json.loads, codec.py 196-205 *)
Definition loads (fparse : pystr -> N) (x : pystr) : res mobj :=
  let y := skip_ws x in
  let* (o, r) := jvalue fparse (S (S (2 * length y))) y in
  match skip_ws r with [] => Ok o | _ => Err ValueError end.

(** ** JsonCodec (178-204) *)
Definition json_dumps (frepr : N -> pystr) (h : heap) (d : doc) : hres pystr :=
  match json_encode h d with
  | (h1, Err e) => (h1, Err e)
  | (h1, Ok o) => (h1, dumps frepr o)
  end.
Definition json_loads (fparse : pystr -> N) (h : heap) (x : pystr) : hres doc :=
  match loads fparse x with
  | Err e => (h, Err e)
  | Ok (MMap o) => if dmem o (s "DM10") then json_decode h (MMap o) else (h, Err DataError)
  | Ok _ => (h, Err DataError)
  end.
