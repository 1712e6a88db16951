(** What it means that both ports agree on a text: positions are counted in code points by one and in
    UTF-16 units by the other. *)
From Verif Require Import PyBase Model_Text Model_JText Spec_JText Model_JUnits.
Local Open Scope Z_scope.

(** the position in units of a position in code points (positions outside the text are kept outside) *)
Definition upos (x : pystr) (p : Z) : Z :=
  if p <? 0 then p
  else if zlen x <? p then zlen (utf16 x) + (p - zlen x)
  else zlen (utf16 (firstn (Z.to_nat p) x)).
(** a call and an answer in units *)
Definition op_units (x : pystr) (o : jtop) : jtop :=
  match o with Make a b => Make (upos x a) (upos x b) | Drop k => Drop k | Save => Save end.
Definition answer_units (x : pystr) (a : jtans) : jtans :=
  match a with
  | Made (Ok (p, q)) => Made (Ok (upos x p, upos x q))
  | Saved (Ok (parts, ids)) => Saved (Ok (map utf16 parts, ids))
  | _ => a
  end.
(** units that are some string of code points *)
Definition paired (u : list N) : Prop := exists x, Forall (fun c => c < 0xD800 \/ 0xDFFF < c < 0x110000)%N x /\ utf16 x = u.
