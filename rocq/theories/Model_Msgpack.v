(** MessagePack as used by the codec: the msgpack C library (a dependency, not code of /repo) packing and
    unpacking the values the codec passes to it (py/docria/codec.py 604-900: msgpack.pack and
    msgpack.Unpacker(raw=False)).  Modelled from the MessagePack specification and msgpack-python's
    defaults (use_bin_type, strict UTF-8, strict map keys).
    Not modelled: the values of extension types and timestamps (they are skipped as the library skips them, but not built), maps with keys of bytes, buffer size limits. *)
From Verif Require Import PyBase.
Local Open Scope Z_scope.

(** Python objects that can be packed.  [MFloat] carries the 64 bits of the double. *)
Inductive mobj :=
| MNil
| MBool (b : bool)
| MInt (i : Z)
| MFloat (bits : N)
| MStr (x : pystr)
| MBin (x : list N)
| MArr (l : list mobj)
| MMap (d : list (pystr * mobj)).

(** k bytes, most significant first (msgpack.pack, codec.py 593-666) *)
Fixpoint be (k : nat) (v : Z) : list N :=
  match k with
  | O => []
  | S k' => be k' (v / 256) ++ [Z.to_N (v mod 256)]
  end.
(** msgpack.pack, codec.py 593-666 *)
Definition unbe (bs : list N) : Z := fold_left (fun acc b => acc * 256 + Z.of_N b) bs 0.

(** ** UTF-8 (strict): surrogates cannot be encoded, and only the shortest form is decoded *)
(** msgpack.pack, codec.py 593-666 *)
Definition is_surrogate (c : N) : bool := (N.leb 0xD800 c && N.leb c 0xDFFF)%bool.
(** msgpack.pack, codec.py 593-666 *)
Definition utf8_char (c : N) : res (list N) :=
  if N.ltb c 0x80 then Ok [c]
  else if N.ltb c 0x800 then Ok [0xC0 + c / 64; 0x80 + c mod 64]%N
  else if is_surrogate c then Err UnicodeError
  else if N.ltb c 0x10000 then Ok [0xE0 + c / 4096; 0x80 + (c / 64) mod 64; 0x80 + c mod 64]%N
  else if N.ltb c 0x110000 then Ok [0xF0 + c / 262144; 0x80 + (c / 4096) mod 64; 0x80 + (c / 64) mod 64; 0x80 + c mod 64]%N
  else Err UnicodeError.
(** msgpack.pack, codec.py 593-666 *)
Fixpoint utf8_encode (x : pystr) : res (list N) :=
  match x with
  | [] => Ok []
  | c :: r => let* a := utf8_char c in let* b := utf8_encode r in Ok (a ++ b)
  end.
(** msgpack.pack, codec.py 593-666 *)
Definition is_cont (b : N) : bool := (N.leb 0x80 b && N.ltb b 0xC0)%bool.
(** msgpack.pack, codec.py 593-666 *)
Fixpoint utf8_decode (bs : list N) : res pystr :=
  match bs with
  | [] => Ok []
  | b0 :: r =>
      if N.ltb b0 0x80 then let* x := utf8_decode r in Ok (b0 :: x)
      else if N.ltb b0 0xC0 then Err UnicodeError
      else if N.ltb b0 0xE0 then
        match r with
        | b1 :: r1 =>
            let c := ((b0 - 0xC0) * 64 + (b1 - 0x80))%N in
            if is_cont b1 && N.leb 0x80 c then let* x := utf8_decode r1 in Ok (c :: x) else Err UnicodeError
        | [] => Err UnicodeError
        end
      else if N.ltb b0 0xF0 then
        match r with
        | b1 :: b2 :: r2 =>
            let c := ((b0 - 0xE0) * 4096 + (b1 - 0x80) * 64 + (b2 - 0x80))%N in
            if is_cont b1 && is_cont b2 && N.leb 0x800 c && negb (is_surrogate c)
            then let* x := utf8_decode r2 in Ok (c :: x) else Err UnicodeError
        | _ => Err UnicodeError
        end
      else if N.ltb b0 0xF8 then
        match r with
        | b1 :: b2 :: b3 :: r3 =>
            let c := ((b0 - 0xF0) * 262144 + (b1 - 0x80) * 4096 + (b2 - 0x80) * 64 + (b3 - 0x80))%N in
            if is_cont b1 && is_cont b2 && is_cont b3 && N.leb 0x10000 c && N.ltb c 0x110000
            then let* x := utf8_decode r3 in Ok (c :: x) else Err UnicodeError
        | _ => Err UnicodeError
        end
      else Err UnicodeError
  end.

(** ** Packing *)
(** msgpack.pack, codec.py 593-666 *)
Definition pack_int (z : Z) : res (list N) :=
  if z <? - 2 ^ 63 then Err OverflowError
  else if z <? - 2 ^ 31 then Ok (0xD3%N :: be 8 (z + 2 ^ 64))
  else if z <? - 2 ^ 15 then Ok (0xD2%N :: be 4 (z + 2 ^ 32))
  else if z <? - 2 ^ 7 then Ok (0xD1%N :: be 2 (z + 2 ^ 16))
  else if z <? - 32 then Ok (0xD0%N :: be 1 (z + 2 ^ 8))
  else if z <? 0 then Ok [Z.to_N (z + 256)]
  else if z <? 2 ^ 7 then Ok [Z.to_N z]
  else if z <? 2 ^ 8 then Ok (0xCC%N :: be 1 z)
  else if z <? 2 ^ 16 then Ok (0xCD%N :: be 2 z)
  else if z <? 2 ^ 32 then Ok (0xCE%N :: be 4 z)
  else if z <? 2 ^ 64 then Ok (0xCF%N :: be 8 z)
  else Err OverflowError.
(** msgpack.pack, codec.py 593-666 *)
Definition str_head (n : Z) : res (list N) :=
  if n <? 32 then Ok [Z.to_N (0xA0 + n)]
  else if n <? 2 ^ 8 then Ok (0xD9%N :: be 1 n)
  else if n <? 2 ^ 16 then Ok (0xDA%N :: be 2 n)
  else if n <? 2 ^ 32 then Ok (0xDB%N :: be 4 n)
  else Err ValueError.
(** msgpack.pack, codec.py 593-666 *)
Definition bin_head (n : Z) : res (list N) :=
  if n <? 2 ^ 8 then Ok (0xC4%N :: be 1 n)
  else if n <? 2 ^ 16 then Ok (0xC5%N :: be 2 n)
  else if n <? 2 ^ 32 then Ok (0xC6%N :: be 4 n)
  else Err ValueError.
(** msgpack.pack, codec.py 593-666 *)
Definition arr_head (n : Z) : res (list N) :=
  if n <? 16 then Ok [Z.to_N (0x90 + n)]
  else if n <? 2 ^ 16 then Ok (0xDC%N :: be 2 n)
  else if n <? 2 ^ 32 then Ok (0xDD%N :: be 4 n)
  else Err ValueError.
(** msgpack.pack, codec.py 593-666 *)
Definition map_head (n : Z) : res (list N) :=
  if n <? 16 then Ok [Z.to_N (0x80 + n)]
  else if n <? 2 ^ 16 then Ok (0xDE%N :: be 2 n)
  else if n <? 2 ^ 32 then Ok (0xDF%N :: be 4 n)
  else Err ValueError.
(** msgpack.pack, codec.py 593-666 *)
Definition pack_str (x : pystr) : res (list N) :=
  let* b := utf8_encode x in let* hd := str_head (zlen b) in Ok (hd ++ b).
(** msgpack.pack, codec.py 593-666 *)
Definition concatM {A} (f : A -> res (list N)) : list A -> res (list N) :=
  fix go (l : list A) := match l with [] => Ok [] | x :: r => let* a := f x in let* b := go r in Ok (a ++ b) end.
(** msgpack.pack, codec.py 593-666 *)
Fixpoint pack (o : mobj) : res (list N) :=
  match o with
  | MNil => Ok [0xC0%N]
  | MBool false => Ok [0xC2%N]
  | MBool true => Ok [0xC3%N]
  | MInt z => pack_int z
  | MFloat b => Ok (0xCB%N :: be 8 (Z.of_N b))
  | MStr x => pack_str x
  | MBin x => let* hd := bin_head (zlen x) in Ok (hd ++ x)
  | MArr l => let* hd := arr_head (zlen l) in let* b := concatM pack l in Ok (hd ++ b)
  | MMap d => let* hd := map_head (zlen d) in
              let* b := concatM (fun kv => let* k := pack_str (fst kv) in let* v := pack (snd kv) in Ok (k ++ v)) d in
              Ok (hd ++ b)
  end.

(** ** Unpacking: one object from the front of the bytes, and the bytes that remain *)
(** msgpack.Unpacker, codec.py 411-501, 668-885 *)
Definition take (k : Z) (bs : list N) : res (list N * list N) :=
  if zlen bs <? k then Err StopIteration else Ok (firstn (Z.to_nat k) bs, skipn (Z.to_nat k) bs).
(** msgpack.Unpacker, codec.py 411-501, 668-885 *)
Definition read_uint (k : Z) (bs : list N) : res (Z * list N) :=
  let* (x, r) := take k bs in Ok (unbe x, r).
(** msgpack.Unpacker, codec.py 411-501, 668-885 *)
Definition to_signed (k : Z) (v : Z) : Z := if v <? 2 ^ (8 * k - 1) then v else v - 2 ^ (8 * k).

(** what the first byte announces; the number is a value, a length, or a number of length bytes (msgpack.Unpacker, codec.py 411-501, 668-885) *)
Inductive tag :=
| TgInt (z : Z) | TgMap (n : Z) | TgArr (n : Z) | TgStr (n : Z)
| TgNil | TgBool (b : bool) | TgBin (k : Z) | TgFloat | TgUint (k : Z) | TgSint (k : Z)
| TgStrN (k : Z) | TgArrN (k : Z) | TgMapN (k : Z) | TgFloat32 | TgExt (n : Z) | TgExtN (k : Z) | TgBad.
(** msgpack.Unpacker, codec.py 411-501, 668-885 *)
Definition classify (b : N) : tag :=
  let z := Z.of_N b in
  if z <? 0x80 then TgInt z
  else if z <? 0x90 then TgMap (z - 0x80)
  else if z <? 0xA0 then TgArr (z - 0x90)
  else if z <? 0xC0 then TgStr (z - 0xA0)
  else if z <? 0xE0 then
    match b with
    | 0xC0 => TgNil | 0xC2 => TgBool false | 0xC3 => TgBool true
    | 0xC4 => TgBin 1 | 0xC5 => TgBin 2 | 0xC6 => TgBin 4
    | 0xCB => TgFloat
    | 0xCC => TgUint 1 | 0xCD => TgUint 2 | 0xCE => TgUint 4 | 0xCF => TgUint 8
    | 0xD0 => TgSint 1 | 0xD1 => TgSint 2 | 0xD2 => TgSint 4 | 0xD3 => TgSint 8
    | 0xD9 => TgStrN 1 | 0xDA => TgStrN 2 | 0xDB => TgStrN 4
    | 0xDC => TgArrN 2 | 0xDD => TgArrN 4 | 0xDE => TgMapN 2 | 0xDF => TgMapN 4
    | 0xCA => TgFloat32
    | 0xC7 => TgExtN 1 | 0xC8 => TgExtN 2 | 0xC9 => TgExtN 4
    | 0xD4 => TgExt 1 | 0xD5 => TgExt 2 | 0xD6 => TgExt 4 | 0xD7 => TgExt 8 | 0xD8 => TgExt 16
    | _ => TgBad
    end%N
  else if z <? 256 then TgInt (z - 256)
  else TgBad.

(** The double equal to a single: the C cast of the bits of a float32 (msgpack.Unpacker, codec.py 411-501, 668-885).
    Not a number stays so, with the quiet bit set. *)
Definition single_double (v : Z) : Z :=
  let sign := v / 2 ^ 31 * 2 ^ 63 in
  let e := (v / 2 ^ 23) mod 256 in
  let m := v mod 2 ^ 23 in
  if e =? 255 then sign + 2047 * 2 ^ 52 + (if m =? 0 then 0 else Z.lor (m * 2 ^ 29) (2 ^ 51))
  else if e =? 0 then
    if m =? 0 then sign
    else let k := Z.log2 m in sign + (k + 874) * 2 ^ 52 + (m - 2 ^ k) * 2 ^ (52 - k)
  else sign + (e + 896) * 2 ^ 52 + m * 2 ^ 29.

(** msgpack.Unpacker, codec.py 411-501, 668-885 *)
Definition unpacker := list N -> res (mobj * list N).
(** msgpack.Unpacker, codec.py 411-501, 668-885 *)
Fixpoint unpack_list (u : unpacker) (n : nat) (bs : list N) : res (list mobj * list N) :=
  match n with
  | O => Ok ([], bs)
  | S n' => let* (o, r) := u bs in let* (os, r') := unpack_list u n' r in Ok (o :: os, r')
  end.
(** entries go into a Python dict: a repeated key overwrites (msgpack.Unpacker, codec.py 411-501, 668-885) *)
Fixpoint unpack_map (u : unpacker) (n : nat) (acc : dict mobj) (bs : list N) : res (dict mobj * list N) :=
  match n with
  | O => Ok (acc, bs)
  | S n' => let* (k, r) := u bs in
            match k with
            | MStr x => let* (v, r') := u r in unpack_map u n' (dset acc x v) r'
            | MBin _ => Err Unmodelled
            | _ => Err ValueError
            end
  end.
(** msgpack.Unpacker, codec.py 411-501, 668-885 *)
Definition unpack_str (n : Z) (bs : list N) : res (mobj * list N) :=
  let* (x, r) := take n bs in let* y := utf8_decode x in Ok (MStr y, r).
(** msgpack.Unpacker, codec.py 411-501, 668-885 *)
Fixpoint unpack (fuel : nat) (bs : list N) : res (mobj * list N) :=
  match fuel with
  | O => Err OutOfFuel
  | S f =>
      match bs with
      | [] => Err StopIteration
      | b :: r =>
          match classify b with
          | TgInt z => Ok (MInt z, r)
          | TgNil => Ok (MNil, r)
          | TgBool x => Ok (MBool x, r)
          | TgUint k => let* (v, r') := read_uint k r in Ok (MInt v, r')
          | TgSint k => let* (v, r') := read_uint k r in Ok (MInt (to_signed k v), r')
          | TgFloat => let* (v, r') := read_uint 8 r in Ok (MFloat (Z.to_N v), r')
          | TgStr n => unpack_str n r
          | TgStrN k => let* (n, r') := read_uint k r in unpack_str n r'
          | TgBin k => let* (n, r') := read_uint k r in let* (x, r'') := take n r' in Ok (MBin x, r'')
          | TgArr n => let* (l, r') := unpack_list (unpack f) (Z.to_nat n) r in Ok (MArr l, r')
          | TgArrN k => let* (n, r') := read_uint k r in
                        let* (l, r'') := unpack_list (unpack f) (Z.to_nat n) r' in Ok (MArr l, r'')
          | TgMap n => let* (d, r') := unpack_map (unpack f) (Z.to_nat n) [] r in Ok (MMap d, r')
          | TgMapN k => let* (n, r') := read_uint k r in
                        let* (d, r'') := unpack_map (unpack f) (Z.to_nat n) [] r' in Ok (MMap d, r'')
          | TgFloat32 => let* (v, r') := read_uint 4 r in Ok (MFloat (Z.to_N (single_double v)), r')
          | TgExt _ | TgExtN _ => Err Unmodelled
          | TgBad => Err ValueError
          end
      end
  end.
(** next(unpacker): every object takes at least one byte, so this fuel is enough (msgpack.Unpacker, codec.py 411-501, 668-885) *)
Definition unpack1 (bs : list N) : res (mobj * list N) := unpack (S (length bs)) bs.

(** unpacker.skip(): the bytes after the next object, which is not built: no look at UTF-8 or at the keys of a map (msgpack.Unpacker, codec.py 411-501, 668-885) *)
Fixpoint skip_n (sk : list N -> res (unit * list N)) (n : nat) (bs : list N) : res (unit * list N) :=
  match n with
  | O => Ok (tt, bs)
  | S n' => let* (_, r) := sk bs in skip_n sk n' r
  end.
(** msgpack.Unpacker, codec.py 411-501, 668-885 *)
Definition skip_bytes (k : Z) (bs : list N) : res (unit * list N) := let* (_, r) := take k bs in Ok (tt, r).
(** msgpack.Unpacker, codec.py 411-501, 668-885 *)
Fixpoint skip (fuel : nat) (bs : list N) : res (unit * list N) :=
  match fuel with
  | O => Err OutOfFuel
  | S f =>
      match bs with
      | [] => Err StopIteration
      | b :: r =>
          match classify b with
          | TgInt _ | TgNil | TgBool _ => Ok (tt, r)
          | TgUint k | TgSint k => skip_bytes k r
          | TgFloat => skip_bytes 8 r
          | TgStr n => skip_bytes n r
          | TgStrN k | TgBin k => let* (n, r') := read_uint k r in skip_bytes n r'
          | TgArr n => skip_n (skip f) (Z.to_nat n) r
          | TgArrN k => let* (n, r') := read_uint k r in skip_n (skip f) (Z.to_nat n) r'
          | TgMap n => skip_n (skip f) (2 * Z.to_nat n) r
          | TgMapN k => let* (n, r') := read_uint k r in skip_n (skip f) (2 * Z.to_nat n) r'
          | TgFloat32 => skip_bytes 4 r
          | TgExt n => skip_bytes (n + 1) r
          | TgExtN k => let* (n, r') := read_uint k r in skip_bytes (n + 1) r'
          | TgBad => Err ValueError
          end
      end
  end.
(** too few bytes: next() raises StopIteration, skip() raises OutOfData (msgpack.Unpacker, codec.py 411-501, 668-885) *)
Definition skip1 (bs : list N) : res (unit * list N) :=
  match skip (S (length bs)) bs with Err StopIteration => Err OutOfData | r => r end.
(** bool(o) (codec.py 822-832) *)
Definition truthy (o : mobj) : bool :=
  match o with
  | MNil => false
  | MBool b => b
  | MInt i => negb (i =? 0)
  | MFloat b => negb ((b =? 0)%N || (b =? 9223372036854775808)%N)   (* 0.0 and -0.0 *)
  | MStr l | MBin l => negb (zlen l =? 0)
  | MArr l => negb (zlen l =? 0)
  | MMap l => negb (zlen l =? 0)
  end.
