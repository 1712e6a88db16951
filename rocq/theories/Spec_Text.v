(** Specification vocabulary for spans: independent of how the model computes. *)
From Verif Require Import PyBase Model_Text.
Local Open Scope Z_scope.

(** the span lies inside its text *)
Definition in_bounds (x : span) : Prop :=
  0 <= sp_start x /\ sp_start x <= sp_stop x /\ sp_stop x <= zlen (sp_text x).
(** character position p belongs to the span *)
Definition pos_in (p : Z) (x : span) : Prop := sp_start x <= p < sp_stop x.
(** x lies inside y, in the same text *)
Definition inside (x y : span) : Prop :=
  sp_text x = sp_text y /\ sp_start y <= sp_start x /\ sp_stop x <= sp_stop y.
Definition all_space (isspace : N -> bool) (l : pystr) : Prop :=
  Forall (fun c => isspace c = true) l.

(** Python's documentation of s[i:j]: the items with index k such that i <= k < j, where a
    negative bound counts from the end and an omitted bound is an end of the string.
    Stated by selecting positions, with no clamping. *)
Definition doc_start (len : Z) (a : option Z) : Z :=
  match a with None => 0 | Some i => if i <? 0 then len + i else i end.
Definition doc_stop (len : Z) (b : option Z) : Z :=
  match b with None => len | Some i => if i <? 0 then len + i else i end.
Definition doc_slice {A} (l : list A) (a b : option Z) : list A :=
  map snd (filter (fun p => (doc_start (zlen l) a <=? fst p) && (fst p <? doc_stop (zlen l) b))
                  (combine (map Z.of_nat (seq 0 (length l))) l)).
(** The bounds of the slice as positions of the string. *)
Definition clamp (len i : Z) : Z := Z.max 0 (Z.min len i).
(** Reversed bounds. *)
Definition reversed (len : Z) (a b : option Z) : Prop :=
  clamp len (doc_stop len b) < clamp len (doc_start len a).
(** Python's s[i] *)
Definition doc_item {A} (l : list A) (i : Z) : res A :=
  if (- zlen l <=? i) && (i <? zlen l)
  then match nth_error l (Z.to_nat (if i <? 0 then zlen l + i else i)) with
       | Some c => Ok c | None => Err IndexError end
  else Err IndexError.
