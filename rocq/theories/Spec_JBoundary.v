(** Files with markers in the Java port: which bytes of data may be damaged, and what a reader should return. *)
From Verif Require Import PyBase Model_Collection Model_Boundary Model_JBoundary Spec_Boundary.
Local Open Scope Z_scope.

(** the data of a program *)
Fixpoint jev_bytes (es : list jev) : list N :=
  match es with
  | [] => []
  | JWrite d :: r => d ++ jev_bytes r
  | JByte c :: r => c :: jev_bytes r
  | JSplit :: r => jev_bytes r
  end.
(** for each byte of the data: whether it was written alone, with write(int) *)
Fixpoint singly (es : list jev) : list bool :=
  match es with
  | [] => []
  | JWrite d :: r => repeat false (length d) ++ singly r
  | JByte c :: r => true :: singly r
  | JSplit :: r => singly r
  end.
(** the same program for the Python writer *)
Definition in_python (e : jev) : oev := match e with JWrite d => OWrite d | JByte c => OWrite [c] | JSplit => OSplit end.
(** a program without write(int) *)
Definition no_single (es : list jev) : Prop := forall c, ~ In (JByte c) es.
(** byte i of the data belongs directly before a marker *)
Definition before_marker (b i : Z) : Prop := exists x, is_data b x = true /\ data_below b x = i /\ (x + 1) mod 2 ^ b = 0.

(** ** reading: a cursor in the data *)
Definition jcursor_step (p : list N) (o : Z) (c : jop) : Z * jans :=
  let rest := skipn (Z.to_nat o) p in
  match c with
  | JNext => match rest with [] => (o, JA_byte (Ok None)) | c :: _ => (o + 1, JA_byte (Ok (Some c))) end
  | JRead len => let x := firstn (Z.to_nat len) rest in
                 (o + zlen x, JA_read (Ok (if (0 <? len) && (zlen x =? 0) then -1 else zlen x, x)))
  end.
Fixpoint jcursor_ops (p : list N) (o : Z) (cs : list jop) : list jans :=
  match cs with
  | [] => []
  | c :: r => let (o1, x) := jcursor_step p o c in x :: jcursor_ops p o1 r
  end.
(** Calls that end: no array is longer than the data that is left, unless the file does not end just before a marker
    or the stream answers -1 to a call for zero bytes at its end. *)
Definition ends_well (b : Z) (p f : list N) (minus : bool) (o : Z) (c : jop) : Prop :=
  match c with
  | JNext => True
  | JRead len => 0 <= len /\ (minus = true \/ zlen f mod 2 ^ b <> 0 \/ o + len <= zlen p)
  end.
Fixpoint all_end_well (b : Z) (p f : list N) (minus : bool) (o : Z) (cs : list jop) : Prop :=
  match cs with
  | [] => True
  | c :: r => ends_well b p f minus o c /\ all_end_well b p f minus (fst (jcursor_step p o c)) r
  end.
(** x is not inside of a marker (its first byte is allowed) and not the first byte of the file *)
Definition outside_markers (b x : Z) : Prop := 1 <= x /\ (2 ^ b <= x -> x mod 2 ^ b = 0 \/ 4 <= x mod 2 ^ b).
