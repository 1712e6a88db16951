(** Document.printschema (py/docria/model.py 1894-1908). *)
From Verif Require Import PyBase Model_Heap Model_Layer Model_Types Model_Document Model_Codec Model_Query Model_Repr.
From Verif Require Model_Printout.
Local Open Scope Z_scope.

Section Schema.
(** str() of the value of a type option *)
Variable vstr : value -> pystr.
(** 1905-1906: "[k=v, ...]", nothing without options *)
Definition options_text (t : dtype) : pystr :=
  match dt_opts t with
  | [] => []
  | os => s "[" ++ Model_Printout.join (s ", ") (map (fun kv => fst kv ++ s "=" ++ vstr (snd kv)) os) ++ s "]"
  end.
(** 1898: max(map(len, ...), default=0) *)
Definition max_length (fs : dict dtype) : nat := fold_right Nat.max 0%nat (map (fun ft => length (fst ft)) fs).
(** the format {:<w} of a string (model.py 1895-1908) *)
Definition ljust (w : nat) (x : pystr) : pystr := x ++ repeat 32%N (w - length x).
(** 1900-1907: what is printed for one field *)
Definition field_line (w : nat) (ft : pystr * dtype) : res pystr :=
  let* ts := type_string (dt_name (snd ft)) in
  Ok (s " * " ++ ljust w (fst ft) ++ s " : " ++ ts ++ options_text (snd ft)).
(** the lines printed, and how it ended (model.py 1895-1908) *)
Fixpoint field_lines (w : nat) (fs : dict dtype) : list pystr * res unit :=
  match fs with
  | [] => ([], Ok tt)
  | ft :: r => match field_line w ft with
               | Err e => ([], Err e)
               | Ok x => let '(xs, e) := field_lines w r in (x :: xs, e)
               end
  end.
(** 1897-1908: one layer, with the empty line *)
Definition layer_lines (h : heap) (kl : pystr * lid) : list pystr * res unit :=
  let fs := l_fields (h_layer h (snd kl)) in
  let '(xs, e) := field_lines (max_length fs) fs in
  ((s "[" ++ fst kl ++ s "]") :: xs ++ match e with Ok _ => [[]] | Err _ => [] end, e).
Fixpoint all_lines (h : heap) (ls : dict lid) : list pystr * res unit :=
  match ls with
  | [] => ([], Ok tt)
  | kl :: r => let '(xs, e) := layer_lines h kl in
               match e with
               | Err _ => (xs, e)
               | Ok _ => let '(ys, e') := all_lines h r in (xs ++ ys, e')
               end
  end.
(** 1894-1908: the text on stdout (print ends each line with a newline), and how it ended *)
Definition printschema (h : heap) (d : doc) : pystr * res unit :=
  let '(xs, e) := all_lines h (ssort fst str_leb (d_layers d)) in (flat_map (fun x => x ++ [10%N]) xs, e).
End Schema.
