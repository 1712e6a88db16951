(** What a tar collection holds. *)
From Verif Require Import PyBase Model_Heap Model_Msgpack Model_Document Model_Codec Model_Lazy Model_Collection Model_Tar Spec_Collection.
Local Open Scope Z_scope.
(** the encoded documents of a program, in order; those that fail are left out *)
Fixpoint tar_written (h : heap) (xs : list wdoc) : list (list N) :=
  match xs with
  | [] => []
  | x :: r => match tar_data h x with
              | (h1, Ok data) => data :: tar_written h1 r
              | (h1, Err _) => tar_written h1 r
              end
  end.
Definition file_names (ms : list member) : list pystr :=
  fold_right (fun m l => match m with TFile n _ => n :: l | TDir _ => l end) [] ms.
Definition member_name (m : member) : pystr := match m with TFile n _ => n | TDir n => n end.
(** the number written in decimal digits *)
Definition decimal (x : pystr) : N := fold_left (fun n c => (10 * n + (c - 48))%N) x 0%N.
(** the data of the files of an archive, in order *)
Definition file_data (ms : list member) : list (list N) :=
  fold_right (fun m l => match m with TFile _ d => d :: l | TDir _ => l end) [] ms.
