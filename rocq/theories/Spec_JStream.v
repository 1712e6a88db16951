(** Document files and the Java port: what a reader should answer, said of lists of documents. *)
From Verif Require Import PyBase Model_Heap Model_Msgpack Model_Lazy Model_Collection Model_JStream Spec_Collection.
Local Open Scope Z_scope.

(** the same program for the Python writer: byte arrays as documents that are already encoded *)
Definition py_op (o : option (list N)) : wop := match o with Some d => WWrite (WMsgpack (mkMD d None None None None None)) | None => WFlush end.
Definition writes (ops : list (option (list N))) : bool := existsb (fun o => match o with Some _ => true | None => false end) ops.
(** lengths that fit an int of Java *)
Definition jsmall (x : list N) : Prop := zlen x < 2147483648.
Definition jacceptable (comp : list N -> list N) (bs : list (list (list N))) : Prop :=
  Forall (fun ds => jsmall (comp (block_bytes ds)) /\ Forall jsmall ds) bs.
(** the codecs that the Java reader knows: comp is undone by what the name stands for *)
Definition java_codec (inflate : list N -> res (list N)) (name : pystr) (comp : list N -> list N) : Prop :=
  (name = s "none" /\ forall x, comp x = x) \/
  (name = s "zip" /\ forall x, inflate (comp x) = Ok x) \/
  (name = s "zipsq" /\ exists c1 c2, (forall x, comp x = c2 (c1 x)) /\ (forall x, inflate (c1 x) = Ok x) /\ (forall x, inflate (c2 x) = Ok x)).

(** ** documents as a list: what is still to come *)
Definition flat_step (docs : list (list N)) (c : scall) : list (list N) * sans :=
  match c with
  | SNext => (tl docs, SA_doc (Ok (hd_error docs)))
  | SSkip => (tl docs, SA_bool (Ok (match docs with [] => false | _ => true end)))
  | SSkipN n => (skipn (Z.to_nat n) docs, SA_num (Ok (zlen (firstn (Z.to_nat n) docs))))
  | _ => ([], SA_num (Ok (zlen docs)))
  end.
Fixpoint flat_calls (docs : list (list N)) (cs : list scall) : list sans :=
  match cs with
  | [] => []
  | c :: cs' => let (docs1, a) := flat_step docs c in a :: flat_calls docs1 cs'
  end.
(** the calls that take single documents, and those that take whole blocks *)
Definition by_document (c : scall) : Prop := match c with SNext | SSkip | SSkipN _ | SCount => True | _ => False end.
Definition by_block (c : scall) : Prop := match c with SBlock | SSkipBlock => True | _ => False end.
(** ** blocks as a list: nextBlock passes over empty ones *)
Fixpoint next_full (bs : list (list (list N))) : option (list (list N)) * list (list (list N)) :=
  match bs with
  | [] => (None, [])
  | [] :: r => next_full r
  | ds :: r => (Some ds, r)
  end.
Definition block_step (bs : list (list (list N))) (c : scall) : list (list (list N)) * sans :=
  match c with
  | SBlock => let (d, r) := next_full bs in (r, SA_docs (Ok d))
  | _ => (tl bs, SA_bool (Ok (match bs with [] => false | _ => true end)))
  end.
Fixpoint block_calls (bs : list (list (list N))) (cs : list scall) : list sans :=
  match cs with
  | [] => []
  | c :: cs' => let (bs1, a) := block_step bs c in a :: block_calls bs1 cs'
  end.
