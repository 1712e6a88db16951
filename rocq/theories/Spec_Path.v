(** Where a path leads, and which file names are accepted. *)
From Verif Require Import PyBase.

(** x consists of these pieces with slashes between them *)
Inductive pieces : pystr -> list pystr -> Prop :=
| pc_last x : ~ In 47%N x -> pieces x [x]
| pc_more x p l : ~ In 47%N x -> pieces p l -> pieces (x ++ 47%N :: p) (x :: l).
(** one piece of a path, from a place given by the names from the root: nothing or a dot stays, two dots go up (not beyond the root) *)
Definition walk (at_ : list pystr) (c : pystr) : list pystr :=
  if str_eqb c [] || str_eqb c (s ".") then at_ else if str_eqb c (s "..") then removelast at_ else at_ ++ [c].
(** the path p, used in the directory [at_], leads to the place [to] *)
Inductive leads (at_ : list pystr) (p : pystr) (to : list pystr) : Prop :=
| leads_abs q l : p = 47%N :: q -> pieces p l -> to = fold_left walk l [] -> leads at_ p to
| leads_rel l : (forall q, p <> 47%N :: q) -> pieces p l -> to = fold_left walk l at_ -> leads at_ p to.
(** a working directory: an absolute path *)
Definition absolute (p : pystr) : Prop := exists q, p = 47%N :: q.
(** the names of docria files: a stem without dots, .docria and perhaps the ending of a compressed file *)
Definition docria_name (x : pystr) : Prop :=
  exists stem ending, stem <> [] /\ ~ In 46%N stem /\ In ending [[]; s ".xz"; s ".bz2"; s ".z"; s ".lz4"] /\ x = stem ++ s ".docria" ++ ending.
(** the slashes that a normal path begins with: none, one, or two if the path begins with exactly two *)
Definition slashes_of (p : pystr) (k : nat) : Prop :=
  (k <= 2)%nat /\ (k = 0%nat <-> forall q, p <> 47%N :: q) /\ (k = 2%nat <-> exists q, p = 47%N :: 47%N :: q /\ forall r, q <> 47%N :: r).
Definition solid_name (c : pystr) : Prop := c <> [] /\ c <> s "." /\ c <> s ".." /\ ~ In 47%N c.
(** names behind steps up; no steps up behind the root *)
Definition normal_names (rooted : bool) (l : list pystr) : Prop :=
  exists ups names, l = ups ++ names /\ Forall (eq (s "..")) ups /\ Forall solid_name names /\ (rooted = true -> ups = []).
