(** The codec registry as a map from names. *)
From Verif Require Import PyBase Model_Collection.
Inductive regop := OpRegister (name : pystr) (comp : list N -> list N) (decomp : list N -> res (list N)) (codec_name : option pystr) | OpUnregister (name : pystr) | OpGet (name : pystr) (no_except : bool).
Inductive regans := RDone (r : res unit) | RCodec (r : res (option codec)).
(** the operations of the code *)
Definition reg_step (g : registry) (o : regop) : registry * regans :=
  match o with
  | OpRegister x c d n => let (g1, r) := register_codec g x c d n in (g1, RDone r)
  | OpUnregister x => let (g1, r) := unregister_codec g x in (g1, RDone r)
  | OpGet x b => (g, RCodec (get_codec g x b))
  end.
Fixpoint reg_run (g : registry) (os : list regop) : registry * list regans :=
  match os with [] => (g, []) | o :: r => let (g1, a) := reg_step g o in let (g2, l) := reg_run g1 r in (g2, a :: l) end.
(** what they should answer: a name is registered by the latest operation on it that succeeded *)
Definition names := pystr -> option codec.
Definition put (m : names) (x : pystr) (v : option codec) : names := fun y => if str_eqb y x then v else m y.
Definition map_step (m : names) (o : regop) : names * regans :=
  match o with
  | OpRegister x c d n => match m x with
                          | Some _ => (m, RDone (Err ValueError))
                          | None => (put m x (Some (mkCodec (match n with Some y => y | None => x end) c d)), RDone (Ok tt))
                          end
  | OpUnregister x => match m x with Some _ => (put m x None, RDone (Ok tt)) | None => (m, RDone (Err KeyError)) end
  | OpGet x b => (m, RCodec (match m x, b with None, false => Err NotImplementedError | r, _ => Ok r end))
  end.
Fixpoint map_run (m : names) (os : list regop) : names * list regans :=
  match os with [] => (m, []) | o :: r => let (m1, a) := map_step m o in let (m2, l) := map_run m1 r in (m2, a :: l) end.
