(** What an index over a document file of any origin is made of, and what a search in it finds. *)
From Verif Require Import PyBase Model_Heap Model_Msgpack Model_Document Model_Codec Model_Lazy Model_Collection Spec_Collection Spec_Index Spec_AnyFile.
Local Open Scope Z_scope.

(** the properties in the data of a document: after the four letters a size, then the properties *)
Inductive props_in (x : list N) : res mobj -> Prop :=
| pi_size e : unpack1 (skipn 4 x) = Err e -> props_in x (Err e)
| pi_none n r e : unpack1 (skipn 4 x) = Ok (MInt n, r) -> unpack1 r = Err e -> props_in x (Err e)
| pi_props n r o r' : unpack1 (skipn 4 x) = Ok (MInt n, r) -> unpack1 r = Ok (o, r') -> props_in x (Ok o).
(** properties that cannot be indexed by these names *)
Inductive refused (names : list pystr) : mobj -> Prop :=
| rf_value d k v : In k names -> dget d k = Some v -> container v -> refused names (MMap d)
| rf_list l k : In k names -> In (MStr k) l -> refused names (MArr l)
| rf_text a k b : In k names -> refused names (MStr (a ++ k ++ b))
| rf_other o k : In k names -> (forall d, o <> MMap d) -> (forall l, o <> MArr l) -> (forall x, o <> MStr x) -> refused names o.
(** the properties of all documents, or the first thing that stops the building *)
Inductive builds (names : list pystr) : list ((Z * Z) * list N) -> ending -> res (list mobj) -> Prop :=
| bl_end : builds names [] Finished (Ok [])
| bl_raised e : builds names [] (Raised e) (Err e)
| bl_unread d ds e x : props_in (snd d) (Err x) -> builds names (d :: ds) e (Err x)
| bl_refused d ds e o : props_in (snd d) (Ok o) -> refused names o -> builds names (d :: ds) e (Err TypeError)
| bl_later d ds e o x : props_in (snd d) (Ok o) -> ~ refused names o -> builds names ds e (Err x) -> builds names (d :: ds) e (Err x)
| bl_doc d ds e o os : props_in (snd d) (Ok o) -> ~ refused names o -> builds names ds e (Ok os) -> builds names (d :: ds) e (Ok (o :: os)).
(** every condition is on an indexed property and holds for the properties o *)
Definition satisfies (names : list pystr) (conds : dict mobj) (o : mobj) : Prop :=
  conds <> [] /\ forall k v, In (k, v) conds -> In k names /\ exists d w, o = MMap d /\ dget d k = Some w /\ py_equal v w.
(** the elements of l whose properties are selected, in order *)
Definition chosen {A} (sel : mobj -> bool) (os : list mobj) (l : list A) : list A :=
  map snd (filter (fun p => sel (fst p)) (combine os l)).
(** decoding one after the other: what was decoded before the first failure, which is reported as an IOError *)
Fixpoint decode_each (h : heap) (xs : list (list N)) : heap * list doc * res unit :=
  match xs with
  | [] => (h, [], Ok tt)
  | x :: r => match msgpack_decode h x with
              | (h1, Err _) => (h1, [], Err IOError)
              | (h1, Ok d) => let '(h2, l, e) := decode_each h1 r in (h2, d :: l, e)
              end
  end.
