(** What a document file holds, and what a reader of it should answer. *)
From Verif Require Import PyBase Model_Heap Model_Msgpack Model_Document Model_Codec Model_Lazy Model_Collection Spec_Layer Spec_Codec.
Local Open Scope Z_scope.

(** ** layout of a file *)
(** a byte string packed as MessagePack bin *)
Definition image (x : list N) : list N := match pack (MBin x) with Ok p => p | Err _ => [] end.
(** the documents of a block, one after the other *)
Definition block_bytes (ds : list (list N)) : list N := List.concat (map image ds).
Definition header (name : pystr) (per : Z) : list N :=
  match pack (MStr name), pack (MInt per) with
  | Ok a, Ok b => dmf1 ++ a ++ b ++ [0xC2%N]
  | _, _ => []
  end.
Definition blocks_bytes (comp : list N -> list N) (bs : list (list (list N))) : list N :=
  List.concat (map (fun ds => image (comp (block_bytes ds))) bs).
Definition small (x : list N) : Prop := zlen x < 4294967296.
(** blocks that can be stored: not empty, lengths below 2^32, documents with the magic bytes *)
Definition storable (comp : list N -> list N) (bs : list (list (list N))) : Prop :=
  Forall (fun ds => ds <> [] /\ small (comp (block_bytes ds)) /\ Forall (fun d => small d /\ firstn 4 d = magic) ds) bs.
(** blocks that a reader accepts: they may be empty *)
Definition acceptable (comp : list N -> list N) (bs : list (list (list N))) : Prop :=
  Forall (fun ds => small (comp (block_bytes ds)) /\ Forall (fun d => small d /\ firstn 4 d = magic) ds) bs.
(** where block i starts in the file, and document j in its block *)
Definition block_at (hdr : list N) (comp : list N -> list N) (bs : list (list (list N))) (i : nat) : Z :=
  zlen hdr + zlen (blocks_bytes comp (firstn i bs)).
Definition doc_at (ds : list (list N)) (j : nat) : Z := zlen (block_bytes (firstn j ds)).
(** every document with its reference, in the order of the file *)
Fixpoint refs_of (at_block : nat -> Z) (i : nat) (bs : list (list (list N))) : list ((Z * Z) * list N) :=
  match bs with
  | [] => []
  | ds :: r => map (fun j => ((at_block i, doc_at ds j), nth j ds [])) (seq 0 (length ds)) ++ refs_of at_block (S i) r
  end.
Definition stored (hdr : list N) (comp : list N -> list N) (bs : list (list (list N))) : list ((Z * Z) * list N) :=
  refs_of (block_at hdr comp bs) 0 bs.
(** the object handed out for a stored document *)
Definition fresh (x : (Z * Z) * list N) : mdoc := mkMD (snd x) (Some (fst x)) None None None None.

(** ** a reader is a position in that list: the next document to hand out *)
Inductive acall := ANext | AGet (k : nat) | ASeek (i : nat).
Definition first_of (bs : list (list (list N))) (i : nat) : nat := length (List.concat (firstn i bs)).
Definition sanswer (docs : list ((Z * Z) * list N)) (bs : list (list (list N))) (k : nat) (c : acall) : nat * ranswer :=
  match c with
  | ANext => match nth_error docs k with
             | Some x => (S k, ADoc (Ok (Some (fresh x))))
             | None => (k, ADoc (Ok None))
             end
  | AGet m => match nth_error docs m with
              | Some x => (S m, ADoc (Ok (Some (fresh x))))
              | None => (k, ADoc (Err IndexError))
              end
  | ASeek i => (first_of bs i, ADone (Ok tt))
  end.
Fixpoint sanswers (docs : list ((Z * Z) * list N)) (bs : list (list (list N))) (k : nat) (cs : list acall) : list ranswer :=
  match cs with
  | [] => []
  | c :: cs' => let (k1, a) := sanswer docs bs k c in a :: sanswers docs bs k1 cs'
  end.
(** the calls themselves: get with the reference of document k, seek to the start of block i *)
Definition concrete (docs : list ((Z * Z) * list N)) (at_block : nat -> Z) (c : acall) : rcall :=
  match c with
  | ANext => RNext
  | AGet k => RGet (match nth_error docs k with Some x => fst x | None => (0, 0) end)
  | ASeek i => RSeek (at_block i)
  end.
(** calls that stay inside the file *)
Definition inside (docs : list ((Z * Z) * list N)) (bs : list (list (list N))) (c : acall) : Prop :=
  match c with ANext => True | AGet k => (k < length docs)%nat | ASeek i => (i <= length bs)%nat end.

(** ** what a program writes: each written document with the heap it was written from, in order *)
Fixpoint written (h : heap) (ops : list wop) : list (heap * wdoc * list N) :=
  match ops with
  | [] => []
  | WFlush :: r => written h r
  | WWrite x :: r => match wdoc_data h x with
                     | (h1, Ok data) => (h, x, data) :: written h1 r
                     | (_, Err _) => []
                     end
  end.
Definition written_data (h : heap) (ops : list wop) : list (list N) := map snd (written h ops).
(** the same, in runs between explicit flushes *)
Fixpoint runs (h : heap) (ops : list wop) : list (list (list N)) :=
  match ops with
  | [] => [[]]
  | WFlush :: r => [] :: runs h r
  | WWrite x :: r => match wdoc_data h x with
                     | (h1, Ok data) => match runs h1 r with q :: qs => (data :: q) :: qs | [] => [[data]] end
                     | (_, Err _) => [[]]
                     end
  end.
(** how a run is cut into blocks: all full but the last *)
Definition cut_in (per : Z) (run : list (list N)) (bs : list (list (list N))) : Prop :=
  List.concat bs = run /\
  forall pre b post, bs = pre ++ b :: post -> b <> [] /\ (0 < per -> zlen b <= per) /\ (post <> [] -> zlen b = per).
(** documents that carry the magic bytes: all but WMsgpack objects that no constructor made *)
Definition proper (x : wdoc) : Prop := match x with WMsgpack m => firstn 4 (md_raw m) = magic | _ => True end.
(** a file made by a writer with codec c, closed without an exception *)
Definition is_file (c : codec) (per : Z) (h : heap) (ops : list wop) (f : list N) : Prop :=
  exists w h1 w1, writer_open c per = Ok w /\ writer_run h w ops = (h1, w1, Ok tt) /\ f = out_bytes (w_out w1).
Definition all_proper (ops : list wop) : Prop := forall x, In (WWrite x) ops -> proper x.
(** the reader knows a codec of that name which undoes the compression *)
Definition undoes (g : registry) (c : codec) : Prop :=
  exists c', get_codec g (c_name c) false = Ok (Some c') /\ forall x, c_decomp c' (c_comp c x) = Ok x.
(** every document of the program can be encoded *)
Fixpoint all_encoded (h : heap) (ops : list wop) : Prop :=
  match ops with
  | [] => True
  | WFlush :: r => all_encoded h r
  | WWrite x :: r => exists h1 data, wdoc_data h x = (h1, Ok data) /\ all_encoded h1 r
  end.
(** the blocks that lie completely within the first n bytes *)
Definition complete (at_block : nat -> Z) (bs : list (list (list N))) (n : Z) (m : nat) : Prop :=
  (m <= length bs)%nat /\ at_block m <= n /\ ((m < length bs)%nat -> n < at_block (S m)).
(** the documents that a program writes (those already encoded left out) *)
Fixpoint docs_of (ops : list wop) : list doc :=
  match ops with
  | WWrite (WDocument d _ _) :: r => d :: docs_of r
  | _ :: r => docs_of r
  | [] => []
  end.
Definition only_documents (ops : list wop) : Prop := forall x, In (WWrite x) ops -> exists d ex tv, x = WDocument d ex tv.
Definition readable (h : heap) (d : doc) : Prop := doc_ok h d /\ exists props, d_props d = MMap props.
