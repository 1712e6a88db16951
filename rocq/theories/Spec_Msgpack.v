(** Which packable objects are Python values: no key twice in a dictionary, 64-bit floats. *)
From Verif Require Import PyBase Model_Msgpack.
Local Open Scope Z_scope.

Inductive python_value : mobj -> Prop :=
| pv_nil : python_value MNil
| pv_bool b : python_value (MBool b)
| pv_int i : python_value (MInt i)
| pv_float b : (b < 18446744073709551616)%N -> python_value (MFloat b)
| pv_str x : python_value (MStr x)
| pv_bin x : Forall (fun b => (b < 256)%N) x -> python_value (MBin x)
| pv_arr l : Forall python_value l -> python_value (MArr l)
| pv_map d : NoDup (map fst d) -> Forall python_value (map snd d) -> python_value (MMap d).

(** The format limits: 64-bit ints, strings without surrogates, lengths below 2^32. *)
Definition scalar (c : N) : Prop := (c < 0xD800 \/ (0xDFFF < c /\ c < 0x110000))%N.
(** number of bytes of a character in UTF-8 *)
Definition utf8_width (c : N) : Z :=
  if N.ltb c 128 then 1 else if N.ltb c 2048 then 2 else if N.ltb c 65536 then 3 else 4.
Definition utf8_len (x : pystr) : Z := fold_right (fun c n => utf8_width c + n) 0 x.
Definition str_fits (x : pystr) : Prop := Forall scalar x /\ utf8_len x < 4294967296.
Inductive fits : mobj -> Prop :=
| ft_nil : fits MNil
| ft_bool b : fits (MBool b)
| ft_int i : - 9223372036854775808 <= i < 18446744073709551616 -> fits (MInt i)
| ft_float b : fits (MFloat b)
| ft_str x : str_fits x -> fits (MStr x)
| ft_bin x : zlen x < 4294967296 -> fits (MBin x)
| ft_arr l : zlen l < 4294967296 -> Forall fits l -> fits (MArr l)
| ft_map d : zlen d < 4294967296 -> Forall str_fits (map fst d) -> Forall fits (map snd d) -> fits (MMap d).

Definition bytes (bs : list N) : Prop := Forall (fun b => (b < 256)%N) bs.

(** How many floats a value holds; dictionary keys are strings. *)
Fixpoint floats (o : mobj) : nat :=
  match o with
  | MFloat _ => 1
  | MArr l => list_sum (map floats l)
  | MMap d => list_sum (map (fun kv => floats (snd kv)) d)
  | _ => 0
  end.
