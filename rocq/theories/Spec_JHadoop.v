(** What a DocumentWritable stands for. *)
From Verif Require Import PyBase Model_JStream Model_JCodec Model_JEncode Model_JHadoop Spec_JStream.
Local Open Scope Z_scope.
(** b are the bytes that others get to see: the bytes held, or the encoding of the document if there are none *)
Inductive carries : jwritable -> list N -> Prop :=
| ca_blob d b : carries (mkW d (Some b)) b
| ca_doc j b : java_encode j = Ok b -> carries (mkW (Some j) None) b.
(** what a job sees of the answers of nextRaw: a document becomes the key; after the end nothing is asked any more; an error changes no key *)
Fixpoint seen (cur : jwritable) (l : list sans) : list (res bool * jwritable) :=
  match l with
  | SA_doc (Ok (Some d)) :: r => (Ok true, mkW None (Some d)) :: seen (mkW None (Some d)) r
  | SA_doc (Err e) :: r => (Err e, cur) :: seen cur r
  | _ => repeat (Ok false, cur) (length l)
  end.
