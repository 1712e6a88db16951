(** Programs that go on after a document that cannot be written. *)
From Verif Require Import PyBase Model_Text Model_Heap Model_Layer Model_Types Model_Msgpack Model_Document Model_Codec Model_Lazy Model_Collection.
Local Open Scope Z_scope.

(** a document that is refused: it cannot be encoded, or is too long *)
Definition refusal (h : heap) (x : wdoc) : heap * res (list N) :=
  match wdoc_data h x with
  | (h1, Err e) => (h1, Err e)
  | (h1, Ok data) => (h1, match pack (MBin data) with Ok _ => Ok data | Err e => Err e end)
  end.
(** the same program without the documents that are refused, the others in encoded form *)
Fixpoint accepted (h : heap) (ops : list wop) : list wop :=
  match ops with
  | [] => []
  | WFlush :: r => WFlush :: accepted h r
  | WWrite x :: r => match refusal h x with
                     | (h1, Ok data) => WWrite (WMsgpack (mkMD data None None None None None)) :: accepted h1 r
                     | (h1, Err _) => accepted h1 r
                     end
  end.
(** what the calls answer if nothing else goes wrong: that every block can be packed *)
Fixpoint expected (h : heap) (ops : list wop) : list (res unit) :=
  match ops with
  | [] => []
  | WFlush :: r => Ok tt :: expected h r
  | WWrite x :: r => match refusal h x with
                     | (h1, Ok _) => Ok tt :: expected h1 r
                     | (h1, Err e) => Err e :: expected h1 r
                     end
  end.
