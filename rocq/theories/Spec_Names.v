(** The names of the types in a file (DataType2String of the Python port, DataTypeName of the Java port), and the first bytes of a document. *)
From Verif Require Import PyBase Model_Heap Model_JCodec.

Definition wire_names : list (jname * pystr) :=
  [(JTNil, s "nil"); (JT TI32, s "i32"); (JT TI64, s "i64"); (JT TF64, s "f64"); (JT TBool, s "i1"); (JT TString, s "str"); (JT TBinary, s "bin");
   (JT TSpan, s "span"); (JT TExt, s "ext"); (JT TNodeRef, s "noderef"); (JT TNodeRefMany, s "noderef_array"); (JT TNodeRefSpan, s "nodespan")].
