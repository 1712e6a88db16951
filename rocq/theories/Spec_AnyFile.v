(** What a document file of any origin holds: the values one after the other (unpack1 is MessagePack, see C78),
    up to the end of the data, the first None or the first thing that cannot be read. *)
From Verif Require Import PyBase Model_Heap Model_Msgpack Model_Document Model_Codec Model_Lazy Model_Collection Spec_Collection.
Local Open Scope Z_scope.

Inductive ending := Finished | Raised (e : exn).
(** no more values: the data ends, perhaps within a value, or a None follows *)
Definition over (bs : list N) : Prop := unpack1 bs = Err StopIteration \/ exists r, unpack1 bs = Ok (MNil, r).
Definition bad (bs : list N) (e : exn) : Prop := unpack1 bs = Err e /\ e <> StopIteration.
Definition is_bytes (o : mobj) : Prop := match o with MBin _ => True | _ => False end.
(** the documents of a block that starts at p of the file, from the place off in it *)
Inductive in_block (p : Z) : Z -> list N -> list ((Z * Z) * list N) -> ending -> Prop :=
| ib_over off bs : over bs -> in_block p off bs [] Finished
| ib_bad off bs e : bad bs e -> in_block p off bs [] (Raised e)
| ib_other off bs o r : unpack1 bs = Ok (o, r) -> o <> MNil -> ~ is_bytes o -> in_block p off bs [] (Raised ValueError)
| ib_foreign off bs x r : unpack1 bs = Ok (MBin x, r) -> firstn 4 x <> s "DM_1" -> in_block p off bs [] (Raised ValueError)
| ib_doc off bs x r ds e : unpack1 bs = Ok (MBin x, r) -> firstn 4 x = s "DM_1" -> in_block p (off + (zlen bs - zlen r)) r ds e ->
    in_block p off bs (((p, off), x) :: ds) e.
(** the blocks of a file from the place p on; block by block: where it starts, its contents *)
Inductive blocks_of (decomp : list N -> res (list N)) : Z -> list N -> list (Z * list N) -> ending -> Prop :=
| bo_over p bs : over bs -> blocks_of decomp p bs [] Finished
| bo_bad p bs e : bad bs e -> blocks_of decomp p bs [] (Raised e)
| bo_other p bs o r : unpack1 bs = Ok (o, r) -> o <> MNil -> ~ is_bytes o -> blocks_of decomp p bs [] (Raised TypeError)
| bo_codec p bs x r e : unpack1 bs = Ok (MBin x, r) -> decomp x = Err e -> blocks_of decomp p bs [] (Raised e)
| bo_block p bs x r y l e : unpack1 bs = Ok (MBin x, r) -> decomp x = Ok y -> blocks_of decomp (p + (zlen bs - zlen r)) r l e ->
    blocks_of decomp p bs ((p, y) :: l) e.
(** the documents of those blocks: the first block that cannot be read to its end is the last *)
Inductive docs_in : list (Z * list N) -> ending -> list ((Z * Z) * list N) -> ending -> Prop :=
| di_end e : docs_in [] e [] e
| di_block p y l e ds ds' e' : in_block p 0 y ds Finished -> docs_in l e ds' e' -> docs_in ((p, y) :: l) e (ds ++ ds') e'
| di_broken p y l e ds x : in_block p 0 y ds (Raised x) -> docs_in ((p, y) :: l) e ds (Raised x).
(** the file f begins as a document file whose codec g knows, and its blocks begin at p *)
Definition opened (g : registry) (f : list N) (decomp : list N -> res (list N)) (p : Z) (body : list N) : Prop :=
  exists name c per flag f1 f2 f3, firstn 4 f = s "Dmf1" /\ f1 = skipn 4 f /\ unpack1 f1 = Ok (MStr name, f2) /\ dget g name = Some c /\ decomp = c_decomp c /\
    unpack1 f2 = Ok (per, f3) /\ unpack1 f3 = Ok (flag, body) /\ truth flag = false /\ p = zlen f - zlen body.
(** the answer of next() at the end *)
Definition last_answer (e : ending) : res (option mdoc) := match e with Finished => Ok None | Raised x => Err x end.
Definition all_answer {A} (e : ending) (l : list A) : res (list A) := match e with Finished => Ok l | Raised x => Err x end.
(** the documents themselves, made one after the other; one whose data end too early (StopIteration) quietly ends them all *)
Fixpoint make_docs (h : heap) (ds : list ((Z * Z) * list N)) (e : ending) : heap * res (list doc) :=
  match ds with
  | [] => (h, all_answer e [])
  | d :: r => match md_document h (fresh d) [] with
              | (_, (h1, Err StopIteration)) => (h1, Ok [])
              | (_, (h1, Err x)) => (h1, Err x)
              | (_, (h1, Ok y)) => let (h2, q) := make_docs h1 r e in (h2, match q with Ok l => Ok (y :: l) | Err x => Err x end)
              end
  end.
