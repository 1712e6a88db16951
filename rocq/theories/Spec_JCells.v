(** Which layers of a file the Java port refuses, and with which exception, said over the bytes where a cell begins. *)
From Verif Require Import PyBase Model_Heap Model_Msgpack Model_JStream Model_Codec Model_JCodec Spec_JCodec Spec_JEncode.
Local Open Scope Z_scope.

(** the kinds of objects *)
Inductive kind := KNil | KBool | KInt | KFloat | KStr | KBin | KArr | KMap.
Definition kind_of (o : mobj) : kind :=
  match o with MNil => KNil | MBool _ => KBool | MInt _ => KInt | MFloat _ => KFloat | MStr _ => KStr | MBin _ => KBin | MArr _ => KArr | MMap _ => KMap end.
(** what a cell of a type may begin with, besides nil; binary data is looked for as an array, so that none can be read *)
Inductive begins : tname -> kind -> Prop :=
| be_int t : In t [TI32; TI64; TNodeRef; TSpan] -> begins t KInt
| be_float : begins TF64 KFloat
| be_bool : begins TBool KBool
| be_str : begins TString KStr
| be_bin t : In t [TString; TExt] -> begins t KBin
| be_arr t : In t [TBinary; TNodeRefMany; TNodeRefSpan] -> begins t KArr.

(** an integer that is an int of Java *)
Definition int_object (o : mobj) : Prop := exists z, o = MInt z /\ int_range z.
(** the cell at the front of the bytes is refused *)
Inductive cell_refused (texts : dict (list N * list Z)) : tname -> pystr -> list N -> exn -> Prop :=
(** a MessageTypeException (for an extension a MessageTypeCastException) *)
| cl_kind t key c o r : t <> TUnknown -> unpack1 c = Ok (o, r) -> o <> MNil -> ~ begins t (kind_of o) -> cell_refused texts t key c TypeError
(** a MessageIntegerOverflowException *)
| cl_int t key c z r : In t [TI32; TNodeRef; TSpan] -> unpack1 c = Ok (MInt z, r) -> z < -2147483648 \/ 2147483647 < z -> cell_refused texts t key c OverflowError
| cl_long key c z r : unpack1 c = Ok (MInt z, r) -> 9223372036854775808 <= z -> cell_refused texts TI64 key c OverflowError
(** the assertion of MsgpackCodec.java 768, which is not on by default *)
| cl_pair key c l r : unpack1 c = Ok (MArr l, r) -> zlen l < 2147483648 -> zlen l <> 2 -> cell_refused texts TNodeRefSpan key c AssertionError
(** a span is two integers or two nils *)
| cl_nil key c r o r' : unpack1 c = Ok (MNil, r) -> unpack1 r = Ok (o, r') -> o <> MNil -> cell_refused texts TSpan key c TypeError
| cl_stop key c a r o r' : unpack1 c = Ok (MInt a, r) -> int_range a -> unpack1 r = Ok (o, r') -> kind_of o <> KInt -> cell_refused texts TSpan key c TypeError
| cl_stop_int key c a r z r' : unpack1 c = Ok (MInt a, r) -> int_range a -> unpack1 r = Ok (MInt z, r') -> z < -2147483648 \/ 2147483647 < z -> cell_refused texts TSpan key c OverflowError
(** an entry of an array of references, or of a range of nodes, which has two *)
| cl_item t key c l1 o l2 r : t = TNodeRefMany \/ t = TNodeRefSpan /\ zlen (l1 ++ o :: l2) = 2 -> unpack1 c = Ok (MArr (l1 ++ o :: l2), r) -> zlen (l1 ++ o :: l2) < 2147483648 -> Forall int_object l1 ->
    kind_of o <> KInt -> cell_refused texts t key c TypeError
| cl_item_int t key c l1 z l2 r : t = TNodeRefMany \/ t = TNodeRefSpan /\ zlen (l1 ++ MInt z :: l2) = 2 -> unpack1 c = Ok (MArr (l1 ++ MInt z :: l2), r) -> zlen (l1 ++ MInt z :: l2) < 2147483648 -> Forall int_object l1 ->
    z < -2147483648 \/ 2147483647 < z -> cell_refused texts t key c OverflowError
(** an end of the bytes where a cell should begin *)
| cl_end t key : cell_refused texts t key [] OutOfData
(** a NullPointerException: there is no such text *)
| cl_text key c a r b r' : unpack1 c = Ok (MInt a, r) -> int_range a -> unpack1 r = Ok (MInt b, r') -> int_range b -> dget texts key = None -> cell_refused texts TSpan key c AttributeError
(** an IndexOutOfBoundsException: the text has fewer parts *)
| cl_part key c a r b r' x offs : unpack1 c = Ok (MInt a, r) -> int_range a -> unpack1 r = Ok (MInt b, r') -> int_range b -> dget texts key = Some (x, offs) ->
    ~ (0 <= a < zlen offs /\ 0 <= b < zlen offs) -> cell_refused texts TSpan key c IndexError.

(** the option that a type needs for its cells *)
Inductive needs : jdtype -> tname -> pystr -> Prop :=
| ne_span t key : ty_name t = JT TSpan -> argument t (s "context") key -> needs t TSpan key
| ne_ext t key : ty_name t = JT TExt -> argument t (s "type") key -> needs t TExt key
| ne_none t n : ty_name t = JT n -> n <> TSpan -> n <> TExt -> needs t n [].
(** the column at the front of the bytes, for n nodes *)
Inductive column_refused (texts : dict (list N * list Z)) (t : jdtype) (n : nat) : list N -> exn -> Prop :=
| cm_special rest : column_refused texts t n (195%N :: rest) NotImplementedError
| cm_option m hd rest : arr_head m = Ok hd -> 0 <= m < 2147483648 -> (ty_name t = JT TSpan /\ dget (ty_args t) (s "context") = None \/ ty_name t = JT TExt /\ dget (ty_args t) (s "type") = None) ->
    column_refused texts t n (194%N :: hd ++ rest) AttributeError
| cm_nil m hd rest : arr_head m = Ok hd -> 0 <= m < 2147483648 -> ty_name t = JTNil -> column_refused texts t n (194%N :: hd ++ rest) NotImplementedError
| cm_unknown m hd rest : arr_head m = Ok hd -> 0 <= m < 2147483648 -> ty_name t = JTMissing -> column_refused texts t n (194%N :: hd ++ rest) AttributeError
| cm_cell m hd tn key k rest col c e : arr_head m = Ok hd -> 0 <= m < 2147483648 -> needs t tn key -> jcells texts tn key k rest = Ok (col, c) -> (k < n)%nat -> cell_refused texts tn key c e ->
    column_refused texts t n (194%N :: hd ++ rest) e.
(** the layer at the front of the bytes, with its fields *)
Inductive layer_refused (texts : dict (list N * list Z)) (fs : dict jdtype) : list N -> exn -> Prop :=
| ly_nodes z n a b rest : pack (MInt z) = Ok a -> int_range z -> pack (MInt n) = Ok b -> int_range n -> n < 0 -> layer_refused texts fs (a ++ b ++ rest) ValueError
| ly_column z n a b rest fs1 f t fs2 nodes c e : pack (MInt z) = Ok a -> int_range z -> pack (MInt n) = Ok b -> int_range n -> 0 <= n -> fs = fs1 ++ (f, t) :: fs2 ->
    jread_columns texts fs1 (repeat [] (Z.to_nat n)) rest = Ok (nodes, c) -> column_refused texts t (Z.to_nat n) c e -> layer_refused texts fs (a ++ b ++ rest) e.
(** the types whose cells are one object *)
Definition one_object (t : tname) : Prop := In t [TI32; TI64; TNodeRef; TF64; TBool; TString; TExt; TNodeRefMany; TNodeRefSpan].
(** what a cell is read as; none for nil *)
Inductive cell_value : tname -> pystr -> mobj -> option jv -> Prop :=
| cv_nil t key : cell_value t key MNil None
| cv_int t key z : In t [TI32; TNodeRef] -> int_range z -> cell_value t key (MInt z) (Some (JInt z))
| cv_long key z : z < 9223372036854775808 -> cell_value TI64 key (MInt z) (Some (JLong z))
| cv_double key b : cell_value TF64 key (MFloat b) (Some (JDouble b))
| cv_bool key b : cell_value TBool key (MBool b) (Some (JBool b))
| cv_str key x : cell_value TString key (MStr x) (Some (JStr x))
| cv_ext key x : cell_value TExt key (MBin x) (Some (JExt key x))
| cv_many key zs : Forall int_range zs -> cell_value TNodeRefMany key (MArr (map MInt zs)) (Some (JHold zs))
(** the first node and how many more, added as an int *)
| cv_range key a b e k : int_range a -> int_range b -> int_range e -> e = a + b + k * 4294967296 -> cell_value TNodeRefSpan key (MArr [MInt a; MInt b]) (Some (JHoldSpan a e)).
(** objects at the front of the bytes, and the bytes after them *)
Inductive objects_then : list mobj -> list N -> list N -> Prop :=
| ob_none bs : objects_then [] bs bs
| ob_more o os bs r c : unpack1 bs = Ok (o, r) -> objects_then os r c -> objects_then (o :: os) bs c.
(** the first cell of a column that is refused *)
Definition first_refused (texts : dict (list N * list Z)) (t : tname) (key : pystr) (os : list mobj) (bs : list N) (e : exn) : Prop :=
  exists os1 o os2 c, os = os1 ++ o :: os2 /\ objects_then os1 bs c /\ Forall (fun o' => exists v, cell_value t key o' v) os1 /\ cell_refused texts t key c e.
(** what two objects are read as in a column of spans over a text: two positions in the list of its parts *)
Inductive span_value (texts : dict (list N * list Z)) (key : pystr) : mobj -> mobj -> option jv -> Prop :=
| sv_nil : span_value texts key MNil MNil None
| sv_span a b x offs i j : int_range a -> int_range b -> dget texts key = Some (x, offs) -> 0 <= a -> 0 <= b -> nth_error offs (Z.to_nat a) = Some i -> nth_error offs (Z.to_nat b) = Some j ->
    span_value texts key (MInt a) (MInt b) (Some (JSpan key i j)).
