(** The MessagePack format: which bytes stand for which value, in any of the ways the format allows.
    Written from the MessagePack specification, not from the reader. *)
From Verif Require Import PyBase Model_Heap Model_Types Model_Msgpack Model_Document Model_Codec Spec_Msgpack Spec_Index.
Local Open Scope Z_scope.

(** the unsigned number with these bytes, most significant first *)
Fixpoint big_endian (ds : list N) : Z :=
  match ds with [] => 0 | d :: r => Z.of_N d * 256 ^ zlen r + big_endian r end.
(** two's complement in k bytes *)
Definition two_complement (k v : Z) : Z := if v <? 2 ^ (8 * k - 1) then v else v - 2 ^ (8 * k).

(** ** UTF-8 *)
Inductive utf8_of : N -> list N -> Prop :=
| u1 c : (c < 128)%N -> utf8_of c [c]
| u2 c : (128 <= c < 2048)%N -> utf8_of c [192 + c / 64; 128 + c mod 64]%N
| u3 c : (2048 <= c < 65536)%N -> ~ (0xD800 <= c <= 0xDFFF)%N -> utf8_of c [224 + c / 4096; 128 + (c / 64) mod 64; 128 + c mod 64]%N
| u4 c : (65536 <= c < 0x110000)%N -> utf8_of c [240 + c / 262144; 128 + (c / 4096) mod 64; 128 + (c / 64) mod 64; 128 + c mod 64]%N.
Inductive utf8 : list N -> pystr -> Prop :=
| u_nil : utf8 [] []
| u_cons c b bs x : utf8_of c b -> utf8 bs x -> utf8 (b ++ bs) (c :: x).

(** ** floats of 32 bits *)
Definition exponent32 (v : Z) : Z := (v / 2 ^ 23) mod 2 ^ 8.
Definition fraction32 (v : Z) : Z := v mod 2 ^ 23.
(** the magnitude of a finite single, as a multiple of 2^-149 *)
Definition units32 (v : Z) : Z := if exponent32 v =? 0 then fraction32 v else (2 ^ 23 + fraction32 v) * 2 ^ (exponent32 v - 1).
(** the magnitude of a finite double, as a multiple of 2^-1074 *)
Definition units64 (b : N) : Z := if exponent b =? 0 then fraction b else (2 ^ 52 + fraction b) * 2 ^ (exponent b - 1).
(** the double b is the single v: same sign and value; an infinity stays one, and not a number stays so (made quiet) *)
Definition single (v : Z) (b : N) : Prop :=
  (b < 18446744073709551616)%N /\ (negative b <-> 2 ^ 31 <= v) /\
  (exponent32 v <> 255 -> exponent b <> 2047 /\ units64 b = units32 v * 2 ^ 925) /\
  (exponent32 v = 255 -> exponent b = 2047 /\ (fraction32 v = 0 -> fraction b = 0) /\
     (fraction32 v <> 0 -> fraction b = Z.lor (fraction32 v * 2 ^ 29) (2 ^ 51))).

(** ** the length of a string, array or map: in the first byte, which is [base] plus the length when that is below [limit],
    or in so many bytes after a first byte *)
Definition length_head (base limit : Z) (long : list (N * Z)) (hd : list N) (n : Z) : Prop :=
  (0 <= n < limit /\ hd = [Z.to_N (base + n)]) \/ (exists c k ds, In (c, k) long /\ hd = c :: ds /\ zlen ds = k /\ big_endian ds = n).

(** ** values *)
Inductive spells : list N -> mobj -> Prop :=
| sp_nil : spells [0xC0%N] MNil
| sp_bool (b : bool) : spells [if b then 0xC3%N else 0xC2%N] (MBool b)
| sp_pos c : (c < 128)%N -> spells [c] (MInt (Z.of_N c))
| sp_neg c : (0xE0 <= c < 256)%N -> spells [c] (MInt (Z.of_N c - 256))
| sp_uint c k ds : In (c, k) [(0xCC%N, 1); (0xCD%N, 2); (0xCE%N, 4); (0xCF%N, 8)] -> zlen ds = k -> spells (c :: ds) (MInt (big_endian ds))
| sp_sint c k ds : In (c, k) [(0xD0%N, 1); (0xD1%N, 2); (0xD2%N, 4); (0xD3%N, 8)] -> zlen ds = k -> spells (c :: ds) (MInt (two_complement k (big_endian ds)))
| sp_double ds : zlen ds = 8 -> spells (0xCB%N :: ds) (MFloat (Z.to_N (big_endian ds)))
| sp_single ds b : zlen ds = 4 -> single (big_endian ds) b -> spells (0xCA%N :: ds) (MFloat b)
| sp_str hd bs x : length_head 0xA0 32 [(0xD9%N, 1); (0xDA%N, 2); (0xDB%N, 4)] hd (zlen bs) -> utf8 bs x -> spells (hd ++ bs) (MStr x)
| sp_bin hd bs : length_head 0 0 [(0xC4%N, 1); (0xC5%N, 2); (0xC6%N, 4)] hd (zlen bs) -> spells (hd ++ bs) (MBin bs)
| sp_arr hd ps os : length_head 0x90 16 [(0xDC%N, 2); (0xDD%N, 4)] hd (zlen os) -> Forall2 spells ps os -> spells (hd ++ List.concat ps) (MArr os)
(** entries in order; as in any Python dictionary a repeated key keeps its place and takes the last value *)
| sp_map hd ps es : length_head 0x80 16 [(0xDE%N, 2); (0xDF%N, 4)] hd (zlen es) ->
    Forall2 (fun p e => spells (fst p) (MStr (fst e)) /\ spells (snd p) (snd e)) ps es ->
    spells (hd ++ List.concat (map (fun p => fst p ++ snd p) ps)) (MMap (fold_left (fun d e => dset d (fst e) (snd e)) es [])).

(** bytes that are values one after the other; [None] is some value, no matter which *)
Inductive stream : list N -> list (option mobj) -> Prop :=
| st_nil : stream [] []
| st_some p o bs os : spells p o -> stream bs os -> stream (p ++ bs) (Some o :: os)
| st_any p o bs os : spells p o -> stream bs os -> stream (p ++ bs) (None :: os).

(** ** documents *)
(** a field in the schema: name, whether it has options, type, options *)
Definition field_values (f : efield) : list (option mobj) :=
  Some (MStr (ef_name f)) :: match ef_args f with
                             | None => [Some (MBool false); Some (MStr (ef_type f))]
                             | Some a => [Some (MBool true); Some (MStr (ef_type f)); Some (MMap a)]
                             end.
(** the values in the file of an encoded document, the sizes of its sections left open *)
Definition file_values (e : edoc) : list (option mobj) :=
  [None; Some (ed_props e); Some (MArr (map (fun l => MStr (el_name l)) (ed_layers e)))]
  ++ flat_map (fun l => Some (MInt (zlen (el_fields l))) :: flat_map field_values (el_fields l)) (ed_layers e)
  ++ [None; Some (MMap (map (fun kt => (fst kt, MArr (map MStr (snd kt)))) (ed_texts e)))]
  ++ flat_map (fun l => None :: Some (MInt (el_num l)) :: flat_map (fun f => [Some (MBool false); Some (MArr (ef_col f))]) (el_fields l)) (ed_layers e).
(** bs is a file with the contents of e, spelled in any way: "DM_1", then the values *)
Definition file_of (e : edoc) (bs : list N) : Prop := bytes bs /\ exists b, bs = [68; 77; 95; 49]%N ++ b /\ stream b (file_values e).
