(** The one text that json.dumps writes for a value, out of the many that stand for it.  [frepr] is the text of a finite float. *)
From Verif Require Import PyBase Model_Msgpack Spec_Printout Spec_JsonText.
From Verif Require Spec_Xml.
Local Open Scope N_scope.

(** backslash, u and four hexadecimal digits, none of them a capital *)
Definition small_unit (x : pystr) (u : N) : Prop := unit_text x u /\ Forall (fun c => ~ (65 <= c <= 70)) x.
(** a character inside quotes: the short escapes but that of the slash; ASCII but controls; escapes with four digits, in pairs beyond the first plane *)
Inductive char_form : N -> pystr -> Prop :=
| cf_short e c : In (e, c) escapes -> c <> 47 -> char_form c [92; e]
| cf_plain c : 32 <= c <= 126 -> c <> 34 -> c <> 92 -> char_form c [c]
| cf_unit c x : c < 32 \/ 126 < c < 65536 -> ~ In c [8; 9; 10; 12; 13] -> small_unit x c -> char_form c x
| cf_pair x y u w : small_unit x u -> small_unit y w -> high u -> low w -> char_form ((u - 55296) * 1024 + (w - 56320) + 65536) (x ++ y).
Definition string_form (x t : pystr) : Prop := exists cs, Forall2 char_form x cs /\ t = s """" ++ List.concat cs ++ s """".
(** not a number: the exponent is all ones and the fraction is not zero *)
Definition not_number (b : N) : Prop := exists m, 0 < m < 2 ^ 52 /\ (b = 2047 * 2 ^ 52 + m \/ b = 2 ^ 63 + 2047 * 2 ^ 52 + m).
(** with a comma and a blank between *)
Definition listed (xs : list pystr) : pystr := match xs with [] => [] | x :: r => x ++ List.concat (map (fun y => s ", " ++ y) r) end.
Inductive form (frepr : N -> pystr) : mobj -> pystr -> Prop :=
| fm_nil : form frepr MNil (s "null")
| fm_true : form frepr (MBool true) (s "true")
| fm_false : form frepr (MBool false) (s "false")
| fm_int i x : Spec_Xml.int_text i x -> form frepr (MInt i) x
| fm_float b : finite b -> form frepr (MFloat b) (frepr b)
| fm_nan b : not_number b -> form frepr (MFloat b) (s "NaN")
| fm_inf : form frepr (MFloat 0x7ff0000000000000) (s "Infinity")
| fm_ninf : form frepr (MFloat 0xfff0000000000000) (s "-Infinity")
| fm_str x t : string_form x t -> form frepr (MStr x) t
| fm_arr l xs : forms frepr l xs -> form frepr (MArr l) (s "[" ++ listed xs ++ s "]")
| fm_map d xs : entry_forms frepr d xs -> form frepr (MMap d) (s "{" ++ listed xs ++ s "}")
with forms (frepr : N -> pystr) : list mobj -> list pystr -> Prop :=
| fs_none : forms frepr [] []
| fs_more o l x xs : form frepr o x -> forms frepr l xs -> forms frepr (o :: l) (x :: xs)
with entry_forms (frepr : N -> pystr) : list (pystr * mobj) -> list pystr -> Prop :=
| ef_none : entry_forms frepr [] []
| ef_more k o d t x xs : string_form k t -> form frepr o x -> entry_forms frepr d xs -> entry_forms frepr ((k, o) :: d) ((t ++ s ": " ++ x) :: xs).
(** strings of code points, floats of 64 bits *)
Definition points (x : pystr) : Prop := Forall (fun c => c < 0x110000) x.
Inductive of_points : mobj -> Prop :=
| op_nil : of_points MNil
| op_bool b : of_points (MBool b)
| op_int i : of_points (MInt i)
| op_float b : b < 2 ^ 64 -> of_points (MFloat b)
| op_str x : points x -> of_points (MStr x)
| op_bin x : of_points (MBin x)
| op_arr l : Forall of_points l -> of_points (MArr l)
| op_map d : Forall points (map fst d) -> Forall of_points (map snd d) -> of_points (MMap d).
