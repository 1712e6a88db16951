(** Files with markers: which positions hold data, and what a reader should return. *)
From Verif Require Import PyBase Model_Collection Model_Boundary.
Local Open Scope Z_scope.

(** byte x of a file holds data: not the first byte, and not one of the four bytes from k * 2^b on, k >= 1 *)
Definition is_data (b x : Z) : bool := (1 <=? x) && ((x <? 2 ^ b) || (4 <=? x mod 2 ^ b)).
(** the data among bytes that start at position x *)
Fixpoint data_from (b x : Z) (l : list N) : list N :=
  match l with
  | [] => []
  | c :: r => if is_data b x then c :: data_from b (x + 1) r else data_from b (x + 1) r
  end.
(** a file with this data: the exponent first, the data at the data positions, nothing after the last data byte *)
Definition boundary_file (b : Z) (payload f : list N) : Prop :=
  nth_error f 0 = Some (Z.to_N b) /\ data_from b 0 f = payload /\ (zlen f = 1 \/ is_data b (zlen f - 1) = true).

(** ** markers *)
(** how many data positions are below x *)
Definition data_below (b x : Z) : Z := Z.of_nat (length (filter (is_data b) (zrange (Z.to_nat x)))).
(** n bytes of data end at x *)
Definition ends_at (b n x : Z) : Prop := 1 <= x /\ data_below b x = n /\ (x = 1 \/ is_data b (x - 1) = true).
(** how much data was written before each split *)
Fixpoint split_counts (n : Z) (es : list oev) : list Z :=
  match es with
  | [] => []
  | OSplit :: r => n :: split_counts n r
  | OWrite d :: r => split_counts (n + zlen d) r
  end.
(** x is the position of the latest split (the start counts as one) at or before p *)
Definition latest_split (b : Z) (es : list oev) (p x : Z) : Prop :=
  (exists n, In n (0 :: split_counts 0 es) /\ ends_at b n x) /\ x <= p /\
  forall n' x', In n' (0 :: split_counts 0 es) -> ends_at b n' x' -> x' <= p -> x' <= x.
(** four bytes as a signed big-endian number *)
Definition signed32 (l : list N) : option Z :=
  match l with
  | [a; b; c; d] => let v := ((Z.of_N a * 256 + Z.of_N b) * 256 + Z.of_N c) * 256 + Z.of_N d in
                    Some (if v <? 2147483648 then v else v - 4294967296)
  | _ => None
  end.

(** ** reading: a cursor in the data *)
Definition cursor_read (p : list N) (o n : Z) : list N :=
  let rest := skipn (Z.to_nat o) p in if n =? -1 then rest else firstn (Z.to_nat n) rest.
Definition cursor_step (p : list N) (o : Z) (c : bop) : Z * bans :=
  match c with
  | BRead n => let x := cursor_read p o n in (o + zlen x, ABytes (Ok x))
  | BSeek q => (q, APos (Ok q))
  | BTell => (o, APos (Ok o))
  end.
Fixpoint cursor_ops (p : list N) (o : Z) (cs : list bop) : list bans :=
  match cs with
  | [] => []
  | c :: r => let (o1, x) := cursor_step p o c in x :: cursor_ops p o1 r
  end.
(** Offsets where the reader's arithmetic is right: the markers before byte o are as many as multiples of 2^b
    up to o + 1.  True of all offsets below 2^(b+1) - 5, for instance. *)
Definition exact_at (b o : Z) : Prop := 0 <= o /\ (o + 1) mod 2 ^ b + 4 * ((o + 1) / 2 ^ b) < 2 ^ b.
(** reads that stop at such an offset, or at the end of a file whose size is not a multiple of 2^b *)
Definition safe_op (b : Z) (p f : list N) (o : Z) (c : bop) : Prop :=
  match c with
  | BRead n => (n = -1 \/ 0 <= n /\ exact_at b (o + n)) /\
               (o < zlen p -> (n = -1 \/ zlen p <= o + n) -> zlen f mod 2 ^ b <> 0)
  | BSeek q => exact_at b q
  | BTell => True
  end.
Fixpoint safe_ops (b : Z) (p f : list N) (o : Z) (cs : list bop) : Prop :=
  match cs with
  | [] => True
  | c :: r => safe_op b p f o c /\ safe_ops b p f (fst (cursor_step p o c)) r
  end.
