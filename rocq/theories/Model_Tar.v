(** Tar collections (py/docria/collection.py 532-626).  An archive is the list of its members; tarfile itself,
    compression and modification times are not modelled. *)
From Verif Require Import PyBase Model_Text Model_Heap Model_Layer Model_Types Model_Msgpack Model_Document Model_Codec Model_Lazy Model_Collection.
Local Open Scope Z_scope.

Inductive member := TDir (name : pystr) | TFile (name : pystr) (data : list N).
(** decimal digits of n (collection.py 569-590, 598-622) *)
Fixpoint digits_fuel (fuel : nat) (n : N) : pystr :=
  match fuel with
  | O => []
  | S f => if (n <? 10)%N then [(48 + n)%N] else digits_fuel f (n / 10)%N ++ [(48 + n mod 10)%N]
  end.
(** collection.py 569-590, 598-622 *)
Definition digits (n : N) : pystr := digits_fuel (S (N.to_nat (N.log2 n))) n.
(** docformat: text, a conversion %0wd, text (the default is doc, 5, .msgpack) (collection.py 569-590, 598-622) *)
Record docformat := mkDF { df_pre : pystr; df_width : nat; df_suf : pystr }.
(** docformat % i (collection.py 569-590, 598-622) *)
Definition format_name (df : docformat) (i : N) : pystr :=
  let d := digits i in df_pre df ++ repeat 48%N (df_width df - length d) ++ d ++ df_suf df.
(** os.path.join(a, b) on POSIX (collection.py 598-622) *)
Definition path_join (a b : pystr) : pystr :=
  match b with
  | 47%N :: _ => b
  | _ => match rev a with
         | [] => b
         | 47%N :: _ => a ++ b
         | _ => a ++ 47%N :: b
         end
  end.
(** collection.py 569-590 *)
Record tarwriter := mkTW { tw_members : list member; tw_root : option pystr; tw_format : docformat; tw_i : N }.
(** 580-590 *)
Definition tar_open (df : docformat) (rootdir : option pystr) : tarwriter :=
  mkTW (match rootdir with Some r => [TDir r] | None => [] end) rootdir df 0.
(** 612-617: encode is called without options *)
Definition tar_data (h : heap) (x : wdoc) : hres (list N) :=
  match x with
  | WDocument d _ _ => msgpack_encode h d false true
  | WMsgpack m => (h, Ok (md_raw m))
  | WOther => (h, Err ValueError)
  end.
(** 598-622 *)
Definition tar_write (h : heap) (w : tarwriter) (x : wdoc) : heap * tarwriter * res unit :=
  let name := match tw_root w with
              | Some r => path_join r (format_name (tw_format w) (tw_i w))
              | None => format_name (tw_format w) (tw_i w)
              end in
  match tar_data h x with
  | (h1, Err e) => (h1, w, Err e)
  | (h1, Ok data) => (h1, mkTW (tw_members w ++ [TFile name data]) (tw_root w) (tw_format w) (tw_i w + 1), Ok tt)
  end.
(** a program; an exception is caught and the program goes on with the next document (calls of collection.py 598-622) *)
Fixpoint tar_run (h : heap) (w : tarwriter) (xs : list wdoc) : heap * tarwriter * list (res unit) :=
  match xs with
  | [] => (h, w, [])
  | x :: r => let '(h1, w1, a) := tar_write h w x in let '(h2, w2, l) := tar_run h1 w1 r in (h2, w2, a :: l)
  end.
(** 553-561: __next__: the rest of the archive, and the document or None for StopIteration *)
Fixpoint tar_next (ms : list member) : list member * res (option mdoc) :=
  match ms with
  | [] => ([], Ok None)
  | TDir _ :: r => tar_next r
  | TFile _ data :: r => (r, rmap Some (md_open data None))
  end.
(** list(reader) (collection.py 550-561) *)
Fixpoint tar_iter (fuel : nat) (ms : list member) : res (list mdoc) :=
  match fuel with
  | O => Err OutOfFuel
  | S f => match tar_next ms with
           | (_, Err e) => Err e
           | (_, Ok None) => Ok []
           | (r, Ok (Some d)) => let* l := tar_iter f r in Ok (d :: l)
           end
  end.
