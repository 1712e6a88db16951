(** What texts and doubles stand for, for the values of the Java port. *)
From Verif Require Import PyBase Model_JValue.
Local Open Scope Z_scope.

(** ** numerals *)
Definition digit (c : N) (d : Z) : Prop := exists z, In z decimal_zeros /\ 0 <= d < 10 /\ Z.of_N c = Z.of_N z + d.
Fixpoint number_of (acc : Z) (ds : list Z) : Z := match ds with [] => acc | d :: r => number_of (10 * acc + d) r end.
(** one or more digits, with or without a sign *)
Inductive numeral : list N -> Z -> Prop :=
| nu_plain x ds : x <> [] -> Forall2 digit x ds -> numeral x (number_of 0 ds)
| nu_plus x ds : x <> [] -> Forall2 digit x ds -> numeral (43%N :: x) (number_of 0 ds)
| nu_minus x ds : x <> [] -> Forall2 digit x ds -> numeral (45%N :: x) (- number_of 0 ds).

(** ** doubles *)
(** IEEE 754: exponent, fraction, sign *)
Definition d_exp (b : N) : Z := Z.of_N b / 2 ^ 52 mod 2048.
Definition d_frac (b : N) : Z := Z.of_N b mod 2 ^ 52.
Definition d_neg (b : N) : bool := 2 ^ 63 <=? Z.of_N b.
Definition is_double (b : N) : Prop := (b < 2 ^ 64)%N.
Definition finite (b : N) : Prop := is_double b /\ d_exp b <> 2047.
(** the size of a double, and the double, in units of the smallest one there is: 2^-1074 *)
Definition d_size (b : N) : Z := if d_exp b =? 0 then d_frac b else (2 ^ 52 + d_frac b) * 2 ^ (d_exp b - 1).
Definition in_units (b : N) : Z := if d_neg b then - d_size b else d_size b.
Definition unit1 : Z := 2 ^ 1074.
(** t is b without what follows the point *)
Definition truncated (b : N) (t : Z) : Prop := Z.abs t * unit1 <= Z.abs (in_units b) < (Z.abs t + 1) * unit1 /\ 0 <= t * in_units b.
(** no double is nearer to the number i; between two that are as near the one with an even last bit *)
Definition nearest (b : N) (i : Z) : Prop := finite b /\
  forall x, finite x -> Z.abs (in_units b - i * unit1) <= Z.abs (in_units x - i * unit1) /\
    (Z.abs (in_units b - i * unit1) = Z.abs (in_units x - i * unit1) -> in_units x <> in_units b -> N.even b = true).

(** ** Base64 (RFC 4648, section 4) *)
Definition sextet (c : N) : option N :=
  if (65 <=? c)%N && (c <=? 90)%N then Some (c - 65)%N
  else if (97 <=? c)%N && (c <=? 122)%N then Some (c - 71)%N
  else if (48 <=? c)%N && (c <=? 57)%N then Some (c + 4)%N
  else if (c =? 43)%N then Some 62%N
  else if (c =? 47)%N then Some 63%N
  else None.
(** four characters are 24 bits; padding drops the last byte or the last two *)
Fixpoint unbase64 (x : list N) : option (list N) :=
  match x with
  | [] => Some []
  | [a; b; c; d] =>
      match sextet a, sextet b, sextet c, sextet d with
      | Some p, Some q, Some r, Some t => let n := (((p * 64 + q) * 64 + r) * 64 + t)%N in Some [n / 65536; n / 256 mod 256; n mod 256]%N
      | Some p, Some q, Some r, None => if (d =? 61)%N then let n := ((p * 64 + q) * 64 + r)%N in Some [n / 1024; n / 4 mod 256]%N else None
      | Some p, Some q, None, None => if (c =? 61)%N && (d =? 61)%N then Some [(p * 64 + q) / 16]%N else None
      | _, _, _, _ => None
      end
  | a :: b :: c :: d :: x' =>
      match sextet a, sextet b, sextet c, sextet d, unbase64 x' with
      | Some p, Some q, Some r, Some t, Some l => let n := (((p * 64 + q) * 64 + r) * 64 + t)%N in Some ([n / 65536; n / 256 mod 256; n mod 256]%N ++ l)
      | _, _, _, _, _ => None
      end
  | _ => None
  end.
(** a byte array *)
Definition bytes8 (x : list N) : Prop := Forall (fun b => b < 256)%N x.
(** c is the small letter d or its capital *)
Definition same_letter (c d : N) : Prop := c = d \/ (c + 32 = d)%N.
