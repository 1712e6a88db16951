(** Property C118: what the decoder of the Java port refuses. *)
From Verif Require Import PyBase Model_Heap Model_Msgpack Model_Codec Model_JStream Model_JCodec Spec_Msgpack Spec_Names Spec_JCodec Spec_JEncode Spec_JRefused Spec_JRefs Spec_JCells Proof_JRefused Proof_JRefs Proof_JCells Proof_JCells2.
Local Open Scope Z_scope.

(** A file with contents that the Java port cannot hold is refused, with the exception that tells what was wrong first. *)
Theorem C118_refused : forall e x bytes rest, layout e = Ok bytes -> zlen bytes < 2147483648 -> NoDup (map el_name (ed_layers e)) ->
  contents_refused e x -> java_decode (bytes ++ rest) = Err x.
Proof. exact contents_refuse. Qed.
Print Assumptions C118_refused.
(** Fewer than four bytes are no file, *)
Theorem C118_short : forall bs, zlen bs < 4 -> java_decode bs = Err OutOfData.
Proof. exact no_magic. Qed.
Print Assumptions C118_short.
(** and four bytes other than DM_1 are an IOError, whatever follows. *)
Theorem C118_magic : forall a bs, zlen a = 4 -> a <> [68; 77; 95; 49]%N -> java_decode (a ++ bs) = Err IOError.
Proof. exact other_magic. Qed.
Print Assumptions C118_magic.

Definition file_of (e : edoc) : list N := match layout e with Ok b => b | Err _ => [] end.
Definition name_field (t : pystr) (a : option (dict mobj)) : efield := mkEF (s "f") t a [].
Definition one_layer (fs : list efield) (n : Z) : edoc := mkED (MMap [(s "lang", MStr (s "sv"))]) [(s "main", [s "ab"])] [mkEL (s "token") n fs].
Definition nil_prop : edoc := mkED (MMap [(s "lang", MStr (s "sv")); (s "uri", MNil)]) [] [].
Definition text_twice : edoc := mkED (MMap []) [(s "main", [s "ab"]); (s "main", [])] [].
(** one file for each exception: a property that is nil, a type that does not exist, a span without a text, an option that is an array, a field and a text given twice,
    and fewer than no nodes *)
Example C118_case :
  contents_refused nil_prop NotImplementedError /\ java_decode (file_of nil_prop) = Err NotImplementedError /\
  contents_refused (one_layer [name_field (s "int") None] 0) AttributeError /\ java_decode (file_of (one_layer [name_field (s "int") None] 0)) = Err AttributeError /\
  contents_refused (one_layer [name_field (s "span") None] 0) NotImplementedError /\ java_decode (file_of (one_layer [name_field (s "span") None] 0)) = Err NotImplementedError /\
  contents_refused (one_layer [name_field (s "str") (Some [(s "x", MArr [])])] 0) NotImplementedError /\
  contents_refused (one_layer [name_field (s "str") None; name_field (s "i32") None] 0) ValueError /\
  contents_refused text_twice ValueError /\ java_decode (file_of text_twice) = Err ValueError /\
  contents_refused (one_layer [name_field (s "str") None] (-1)) ValueError /\
  (forall e, In e [nil_prop; text_twice; one_layer [name_field (s "int") None] 0; one_layer [name_field (s "str") None] (-1)] -> layout e = Ok (file_of e) /\ zlen (file_of e) < 2147483648) /\
  match java_decode (file_of (one_layer [name_field (s "str") None] 0)) with Ok _ => True | Err _ => False end.
Proof.
  assert (K : kept_all [(s "lang", MStr (s "sv"))]).
  { constructor; [split; vm_compute; auto|constructor]. all: try (repeat constructor). }
  assert (KO : kept_all []) by constructor.
  repeat apply conj.
  - apply cr_prop with (a := [(s "lang", MStr (s "sv"))]) (k := s "uri") (o := MNil) (a' := []); [reflexivity|exact K|intros []|constructor].
  - vm_compute. reflexivity.
  - eapply cr_field with (ls := []) (fs := []); [reflexivity|exact K|reflexivity|constructor|reflexivity|constructor|constructor|]. apply fr_unknown; [reflexivity|]. vm_compute. intuition discriminate.
  - vm_compute. reflexivity.
  - eapply cr_field with (ls := []) (fs := []); [reflexivity|exact K|reflexivity|constructor|reflexivity|constructor|constructor|]. apply fr_bare; [reflexivity|vm_compute; tauto|vm_compute; intuition discriminate].
  - vm_compute. reflexivity.
  - eapply cr_field with (ls := []) (fs := []); [reflexivity|exact K|reflexivity|constructor|reflexivity|constructor|constructor|].
    eapply fr_option with (a := []); [reflexivity|exact KO|intros []|repeat constructor].
  - eapply cr_field with (ls := []) (fs := [name_field (s "str") None]); [reflexivity|exact K|reflexivity|constructor|reflexivity| | |].
    + constructor; [vm_compute; tauto|constructor].
    + constructor; [intros []|constructor].
    + apply fr_twice; [vm_compute; tauto|left; reflexivity].
  - eapply cr_text with (ts := [(s "main", [s "ab"])]); [reflexivity|exact KO|constructor|reflexivity| |left; reflexivity]. constructor; [intros []|constructor].
  - vm_compute. reflexivity.
  - eapply cr_nodes; [reflexivity|exact K| | |reflexivity|cbn; lia].
    + constructor; [|constructor]. split; [constructor; [vm_compute; tauto|constructor]|]. constructor; [intros []|constructor].
    + constructor; [intros []|constructor].
  - intros e I. cbn [In] in I. destruct I as [<-|[<-|[<-|[<-|[]]]]]; split; vm_compute; reflexivity.
  - vm_compute. exact I.
Qed.

(** Once the sections are read, a file is refused only for a reference that is no node, and with its exception: a NullPointerException for a layer that does not exist or is not named,
    an IndexOutOfBoundsException for a position outside of it, an IllegalArgumentException for an array of none, a DataInconsistencyException for a range from right to left. *)
Theorem C118_references : forall bs layers e, sections_read bs layers -> string_options layers -> java_decode bs = Err e -> some_bad layers e.
Proof. exact references_refused. Qed.
Print Assumptions C118_references.
(** One field with such a reference is enough. *)
Theorem C118_one : forall bs layers e, sections_read bs layers -> string_options layers -> one_bad layers e -> java_decode bs = Err e.
Proof. exact references_one. Qed.
Print Assumptions C118_one.
(** It is read exactly if all references are nodes. *)
Theorem C118_read : forall bs layers, sections_read bs layers -> string_options layers ->
  ((exists j, java_decode bs = Ok j) <-> Forall (good_layer (layer_sizes layers)) layers).
Proof. exact references_read. Qed.
Print Assumptions C118_read.

Definition ref_layer (t : pystr) (a : dict mobj) (col : list mobj) : edoc := mkED (MMap []) [] [mkEL (s "token") 2 [mkEF (s "f") t (Some a) col]].
Definition to_tokens : dict mobj := [(s "layer", MStr (s "token"))].
Definition tokens_with (t : tname) (x : pystr) (v w : jv) : dict (dict jdtype * list (dict jv)) :=
  [(s "token", ([(s "f", mkJT (JT t) [(s "layer", JStr x)])], [[(s "f", v)]; [(s "f", w)]]))].
(** a file whose second token refers to a third one, one with no layer of that name, one with an empty array, one with a range from right to left, and one that is read *)
Example C118_references_case :
  sections_read (file_of (ref_layer (s "noderef") to_tokens [MInt 1; MInt 2])) (tokens_with TNodeRef (s "token") (JInt 1) (JInt 2)) /\
  string_options (tokens_with TNodeRef (s "token") (JInt 1) (JInt 2)) /\ one_bad (tokens_with TNodeRef (s "token") (JInt 1) (JInt 2)) IndexError /\
  sections_read (file_of (ref_layer (s "noderef") to_tokens [MInt 1; MInt 0])) (tokens_with TNodeRef (s "token") (JInt 1) (JInt 0)) /\
  Forall (good_layer (layer_sizes (tokens_with TNodeRef (s "token") (JInt 1) (JInt 0)))) (tokens_with TNodeRef (s "token") (JInt 1) (JInt 0)) /\
  java_decode (file_of (ref_layer (s "noderef") to_tokens [MInt 1; MInt 2])) = Err IndexError /\
  java_decode (file_of (ref_layer (s "noderef") [(s "layer", MStr (s "other"))] [MInt 1; MInt 2])) = Err AttributeError /\
  java_decode (file_of (ref_layer (s "noderef") [] [MInt 1; MInt 2])) = Err AttributeError /\
  java_decode (file_of (ref_layer (s "noderef_array") to_tokens [MArr [MInt 1]; MArr []])) = Err ValueError /\
  java_decode (file_of (ref_layer (s "nodespan") to_tokens [MArr [MInt 0; MInt 1]; MArr [MInt 1; MInt (-1)]])) = Err DataError.
Proof.
  split; [do 8 eexists; repeat split; vm_compute; reflexivity|].
  split. { intros k fs nodes f t [E|[]] I R. injection E as <- <- <-. destruct I as [E|[]]. injection E as <- <-. exact I. }
  split.
  { exists [], (s "token"), [], (s "f"), (mkJT (JT TNodeRef) [(s "layer", JStr (s "token"))]), [], [[(s "f", JInt 1)]; [(s "f", JInt 2)]], []. split; [reflexivity|]. split; [constructor|]. split; [constructor|].
    apply bf_value with (x := s "token") (pre := [Some (JInt 1)]) (v := JInt 2) (post := []); [left; reflexivity|reflexivity|reflexivity| |].
    - constructor; [|constructor]. apply gr_node. exists 2%nat. split; [reflexivity|lia].
    - apply br_node. apply nn_index with (n := 2%nat); [reflexivity|lia]. }
  split; [do 8 eexists; repeat split; vm_compute; reflexivity|].
  split.
  { constructor; [|constructor]. constructor; [|constructor]. intros _. exists (s "token"). split; [reflexivity|].
    constructor; [apply gr_node; exists 2%nat; split; [reflexivity|lia]|]. constructor; [apply gr_node; exists 2%nat; split; [reflexivity|lia]|constructor]. }
  repeat apply conj; vm_compute; reflexivity.
Qed.

(** A column announced in another form (the byte of true where the encoders write false) is an UnsupportedOperationException. *)
Theorem C118_special : forall bs k f t fs sch texts a z b n rest, before_layers bs ((k, (f, t) :: fs) :: sch) texts (a ++ b ++ 195%N :: rest) ->
  pack (MInt z) = Ok a -> int_range z -> pack (MInt n) = Ok b -> int_range n -> 0 <= n -> java_decode bs = Err NotImplementedError.
Proof. exact special_column. Qed.
Print Assumptions C118_special.
(** the file of one layer, with this byte at its end *)
Example C118_special_case : let bs := file_of (mkED (MMap []) [] [mkEL (s "token") 0 [name_field (s "str") None]]) in
  before_layers bs [(s "token", [(s "f", mkJT (JT TString) [])])] [] ([3]%N ++ [0]%N ++ [194; 144]%N) /\
  before_layers (removelast (removelast bs) ++ [195; 144]%N) [(s "token", [(s "f", mkJT (JT TString) [])])] [] ([3]%N ++ [0]%N ++ [195; 144]%N) /\
  (exists j, java_decode bs = Ok j) /\ java_decode (removelast (removelast bs) ++ [195; 144]%N) = Err NotImplementedError.
Proof.
  cbv zeta. split; [do 4 eexists; repeat split; vm_compute; reflexivity|]. split; [do 4 eexists; repeat split; vm_compute; reflexivity|]. split; [eexists|]; vm_compute; reflexivity.
Qed.

(** A layer with a flaw is refused, after any layers that can be read: a negative number of nodes, a column in another form or of a type without its option, and a cell that its type does not take. *)
Theorem C118_layer : forall bs ls1 k fs ls2 texts r d r' e, before_layers bs (ls1 ++ (k, fs) :: ls2) texts r ->
  jread_layers texts ls1 r = Ok (d, r') -> layer_refused texts fs r' e -> java_decode bs = Err e.
Proof. exact file_bad. Qed.
Print Assumptions C118_layer.
(** a layer of one token and then one of two nodes, the second of which has a value of another type; other values by their results *)
Definition two_layers (t : pystr) (a : option (dict mobj)) (v w : mobj) : edoc :=
  mkED (MMap []) [(s "main", [s "ab"; s "c"])] [mkEL (s "token") 1 [mkEF (s "g") (s "str") None [MStr (s "x")]]; mkEL (s "num") 2 [mkEF (s "f") t a [v; w]]].
Definition over_main : option (dict mobj) := Some [(s "context", MStr (s "main"))].
Example C118_layer_case : let bs := file_of (two_layers (s "i32") None (MInt 1) (MStr (s "x"))) in
  let tf := [(s "g", mkJT (JT TString) [])] in let fs := [(s "f", mkJT (JT TI32) [])] in
  (exists texts r d r', before_layers bs [(s "token", tf); (s "num", fs)] texts r /\ jread_layers texts [(s "token", tf)] r = Ok (d, r') /\ layer_refused texts fs r' TypeError) /\
  java_decode bs = Err TypeError /\ (exists j, java_decode (file_of (two_layers (s "i32") None (MInt 1) (MInt 2))) = Ok j) /\
  java_decode (file_of (two_layers (s "i32") None (MInt 1) (MInt 2147483648))) = Err OverflowError /\
  java_decode (file_of (two_layers (s "i64") None (MInt 1) (MInt 9223372036854775808))) = Err OverflowError /\
  java_decode (file_of (two_layers (s "i64") None (MInt 1) (MBool true))) = Err TypeError /\
  java_decode (file_of (two_layers (s "f64") None MNil (MInt 1))) = Err TypeError /\
  java_decode (file_of (two_layers (s "i1") None MNil (MInt 1))) = Err TypeError /\
  java_decode (file_of (two_layers (s "str") None MNil (MInt 1))) = Err TypeError /\
  java_decode (file_of (two_layers (s "bin") None MNil (MBin [1%N]))) = Err TypeError /\
  java_decode (file_of (two_layers (s "noderef_array") (Some to_tokens) MNil (MInt 1))) = Err TypeError /\
  java_decode (file_of (two_layers (s "nodespan") (Some to_tokens) MNil (MArr [MInt 0]))) = Err AssertionError /\
  java_decode (file_of (two_layers (s "nodespan") (Some to_tokens) MNil (MArr [MInt 0; MNil]))) = Err TypeError /\
  java_decode (file_of (two_layers (s "noderef_array") (Some to_tokens) MNil (MArr [MInt 0; MInt 0; MStr []]))) = Err TypeError /\
  java_decode (file_of (two_layers (s "noderef_array") (Some to_tokens) MNil (MArr [MInt 0; MInt 2147483648; MStr []]))) = Err OverflowError /\
  java_decode (removelast (file_of (two_layers (s "i32") None (MInt 1) (MInt 2)))) = Err OutOfData /\
  java_decode (file_of (two_layers (s "span") over_main MNil (MInt 0))) = Err TypeError /\
  java_decode (file_of (two_layers (s "span") over_main (MInt 0) (MStr (s "x")))) = Err TypeError /\
  java_decode (file_of (two_layers (s "span") over_main (MInt 0) (MInt 3))) = Err IndexError /\
  java_decode (file_of (two_layers (s "span") (Some [(s "context", MStr (s "other"))]) (MInt 0) (MInt 3))) = Err AttributeError.
Proof.
  cbv zeta. split.
  { do 4 eexists. split; [do 4 eexists; repeat split; vm_compute; reflexivity|]. split; [vm_compute; reflexivity|].
    eapply (ly_column _ _ 6 2 [6%N] [2%N] _ [] (s "f") (mkJT (JT TI32) []) []); [reflexivity|split; lia|reflexivity|split; lia|lia|reflexivity|reflexivity|].
    eapply (cm_cell _ _ _ 2 [146%N] TI32 [] 1); [reflexivity|lia|apply ne_none; [reflexivity|discriminate|discriminate]|vm_compute; reflexivity|vm_compute; lia|].
    eapply cl_kind; [discriminate|vm_compute; reflexivity|discriminate|]. intros B. inversion B. }
  split; [vm_compute; reflexivity|]. split; [eexists; vm_compute; reflexivity|]. repeat apply conj; vm_compute; reflexivity.
Qed.

(** A cell of one object is read as the value of its type or refused, and nothing else; arrays of references and node ranges are one object. Binary data in a column of strings is left open, as its bytes are UTF-8 or not. *)
Theorem C118_cell : forall texts t key c o r, one_object t -> unpack1 c = Ok (o, r) -> zlen c < 2147483648 -> (t = TString -> kind_of o <> KBin) ->
  (forall v r', jcell_opt texts t key c = Ok (v, r') <-> cell_value t key o v /\ r' = r) /\
  (forall e, jcell_opt texts t key c = Err e <-> cell_refused texts t key c e).
Proof. exact cell_iff. Qed.
Print Assumptions C118_cell.
(** an integer that is read, one that is too large, a string, arrays of references, and node ranges, one of them with a sum that is too large *)
Example C118_cell_case : one_object TI32 /\ unpack1 [7; 1]%N = Ok (MInt 7, [1]%N) /\ cell_value TI32 [] (MInt 7) (Some (JInt 7)) /\ jcell_opt [] TI32 [] [7; 1]%N = Ok (Some (JInt 7), [1]%N) /\
  unpack1 [206; 128; 0; 0; 0]%N = Ok (MInt 2147483648, []) /\ jcell_opt [] TI32 [] [206; 128; 0; 0; 0]%N = Err OverflowError /\ jcell_opt [] TI64 [] [206; 128; 0; 0; 0]%N = Ok (Some (JLong 2147483648), []) /\
  jcell_opt [] TI32 [] [161; 120]%N = Err TypeError /\ jcell_opt [] TString [] [161; 120]%N = Ok (Some (JStr (s "x")), []) /\ jcell_opt [] TString [] [192]%N = Ok (None, []) /\
  jcell_opt [] TNodeRefMany [] [147; 1; 2; 3]%N = Ok (Some (JHold [1; 2; 3]), []) /\ jcell_opt [] TNodeRefMany [] [147; 1; 160; 3]%N = Err TypeError /\ jcell_opt [] TNodeRefSpan [] [146; 1; 2]%N = Ok (Some (JHoldSpan 1 3), []) /\
  jcell_opt [] TNodeRefSpan [] [146; 206; 127; 255; 255; 255; 1]%N = Ok (Some (JHoldSpan 2147483647 (-2147483648)), []) /\
  cell_value TNodeRefSpan [] (MArr [MInt 2147483647; MInt 1]) (Some (JHoldSpan 2147483647 (-2147483648))) /\
  cell_refused [] TI32 [] [161; 120]%N TypeError.
Proof.
  split; [left; reflexivity|]. split; [reflexivity|]. split; [apply cv_int; [left; reflexivity|split; lia]|]. do 11 (split; [vm_compute; reflexivity|]).
  split; [apply cv_range with (k := -1); unfold int_range; lia|].
  eapply cl_kind; [discriminate|vm_compute; reflexivity|discriminate|]. intros B. inversion B.
Qed.
(** So is a whole column: it is read, with the value of each object, exactly if no cell is refused, and else it ends with the exception of the first that is. *)
Theorem C118_column : forall texts t key os bs c, one_object t -> objects_then os bs c -> zlen bs < 2147483648 -> (t = TString -> Forall (fun o => kind_of o <> KBin) os) ->
  (forall col r, jcells texts t key (length os) bs = Ok (col, r) <-> Forall2 (cell_value t key) os col /\ r = c) /\
  (forall e, jcells texts t key (length os) bs = Err e <-> first_refused texts t key os bs e).
Proof. exact column_iff. Qed.
Print Assumptions C118_column.
(** a column of three cells that is read, and one whose second cell is refused *)
Example C118_column_case : objects_then [MInt 7; MNil; MInt 1] [7; 192; 1; 5]%N [5]%N /\ jcells [] TI32 [] 3 [7; 192; 1; 5]%N = Ok ([Some (JInt 7); None; Some (JInt 1)], [5]%N) /\
  objects_then [MInt 7; MBool true; MStr []] [7; 195; 160]%N [] /\ first_refused [] TI32 [] [MInt 7; MBool true; MStr []] [7; 195; 160]%N TypeError /\ jcells [] TI32 [] 3 [7; 195; 160]%N = Err TypeError.
Proof.
  split; [repeat (eapply ob_more; [vm_compute; reflexivity|]); constructor|]. split; [vm_compute; reflexivity|]. split; [repeat (eapply ob_more; [vm_compute; reflexivity|]); constructor|]. split; [|vm_compute; reflexivity].
  exists [MInt 7], (MBool true), [MStr []], [195; 160]%N. split; [reflexivity|]. split; [eapply ob_more; [vm_compute; reflexivity|constructor]|].
  split; [constructor; [eexists; apply cv_int; [left; reflexivity|split; lia]|constructor]|]. eapply cl_kind; [discriminate|vm_compute; reflexivity|discriminate|]. intros B. inversion B.
Qed.
(** And so is a span, over the two objects that are there. *)
Theorem C118_span : forall texts key c o1 r1 o2 r2, unpack1 c = Ok (o1, r1) -> unpack1 r1 = Ok (o2, r2) ->
  (forall v r', jcell_opt texts TSpan key c = Ok (v, r') <-> span_value texts key o1 o2 v /\ r' = r2) /\
  (forall e, jcell_opt texts TSpan key c = Err e <-> cell_refused texts TSpan key c e).
Proof. exact span_iff. Qed.
Print Assumptions C118_span.
(** a text of two parts: its second part, no span, a position that is not there, and one nil *)
Example C118_span_case : let ts := [(s "main", (s "abc", [0; 2; 3]))] in
  span_value ts (s "main") (MInt 1) (MInt 2) (Some (JSpan (s "main") 2 3)) /\ jcell_opt ts TSpan (s "main") [1; 2; 9]%N = Ok (Some (JSpan (s "main") 2 3), [9]%N) /\
  jcell_opt ts TSpan (s "main") [192; 192]%N = Ok (None, []) /\ jcell_opt ts TSpan (s "main") [1; 3]%N = Err IndexError /\ jcell_opt ts TSpan (s "main") [192; 3]%N = Err TypeError /\
  cell_refused ts TSpan (s "main") [1; 3]%N IndexError.
Proof.
  cbv zeta. split; [eapply sv_span; try reflexivity; try lia; split; lia|]. do 4 (split; [vm_compute; reflexivity|]).
  eapply cl_part; [vm_compute; reflexivity|split; lia|vm_compute; reflexivity|split; lia|reflexivity|]. vm_compute. intros [_ [_ X]]. discriminate.
Qed.
