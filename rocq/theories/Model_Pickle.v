(** Pickling and copying a document (py/docria/model.py 1910-1924). *)
From Verif Require Import PyBase Model_Heap Model_Msgpack Model_Document Model_Codec.
Local Open Scope Z_scope.

(** model.py 1910-1915: Document.__getstate__; encode is called without options, so compile runs with
    extra_fields_ok=False and type_validation=True (1937).  The state is the dictionary with the one key
    "msgpacked"; the model keeps its value. *)
Definition doc_getstate (h : heap) (d : doc) : hres (list N) := msgpack_encode h d false true.
(** model.py 1917-1923: Document.__setstate__ on a fresh object: the three attributes come from the decoded document *)
Definition doc_setstate (h : heap) (state : list N) : hres doc :=
  match msgpack_decode h state with
  | (h1, Err e) => (h1, Err e)
  | (h1, Ok d) => (h1, Ok (mkDoc (d_props d) (d_texts d) (d_layers d)))
  end.
(** pickle.loads(pickle.dumps(doc)), copy.copy(doc) and copy.deepcopy(doc) in one process: by object.__reduce_ex__
    all three make a new object from the class and hand it the state (bytes are immutable, so a copy of the state
    has the same bytes).  That protocol of the standard library is assumed (model.py 1910-1923) *)
Definition doc_copy (h : heap) (d : doc) : hres doc :=
  match doc_getstate h d with
  | (h1, Err e) => (h1, Err e)
  | (h1, Ok b) => doc_setstate h1 b
  end.
