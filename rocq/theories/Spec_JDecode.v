(** What the Java port makes of bytes of any origin, and what is the same document again. *)
From Verif Require Import PyBase Model_Text Model_Heap Model_Layer Model_Types Model_Msgpack Model_JUnits Model_JCodec Spec_Msgpack Spec_JUnits Spec_JCodec Spec_JEncode.
Local Open Scope Z_scope.

(** ** a decoded document *)
(** a double among the arguments is (the double of) a float *)
Definition float_only (v : jv) : Prop := forall b, v = JDouble b -> to_float b = b.
(** a value of a node fits the type of its field, and what it refers to exists; the ends of a span are ends of characters of the text,
    in any order *)
Inductive jfound (j : jdoc) (t : jdtype) : jv -> Prop :=
| jf_int i : ty_name t = JT TI32 -> int_range i -> jfound j t (JInt i)
| jf_long i : ty_name t = JT TI64 -> long_range i -> jfound j t (JLong i)
| jf_double b : ty_name t = JT TF64 -> (b < 18446744073709551616)%N -> jfound j t (JDouble b)
| jf_bool b : ty_name t = JT TBool -> jfound j t (JBool b)
| jf_str x : ty_name t = JT TString -> jfound j t (JStr x)
| jf_bin x : ty_name t = JT TBinary -> bytes x -> jfound j t (JBin x)
| jf_ext y x : ty_name t = JT TExt -> argument t (s "type") y -> bytes x -> jfound j t (JExt y x)
| jf_span c x p q : ty_name t = JT TSpan -> argument t (s "context") c -> holds_text j c x -> 0 <= p <= zlen x -> 0 <= q <= zlen x ->
    jfound j t (JSpan c (upos x p) (upos x q))
| jf_node x p : ty_name t = JT TNodeRef -> argument t (s "layer") x -> has_node j x p -> jfound j t (JNode x p)
| jf_nodes x ps : ty_name t = JT TNodeRefMany -> argument t (s "layer") x -> ps <> [] -> Forall (has_node j x) ps -> jfound j t (JNodes x ps)
| jf_nodespan x p q : ty_name t = JT TNodeRefSpan -> argument t (s "layer") x -> (p <= q)%nat -> has_node j x q -> jfound j t (JNodeSpan x p q).
(** the arguments that the type needs are there; what they name need not be *)
Record jtype_found (t : jdtype) : Prop := {
  tf_known : exists tn, ty_name t = JT tn /\ tn <> TUnknown;
  tf_layer : In (ty_name t) [JT TNodeRef; JT TNodeRefMany; JT TNodeRefSpan] -> exists x, argument t (s "layer") x;
  tf_context : ty_name t = JT TSpan -> exists c, argument t (s "context") c;
  tf_ext : ty_name t = JT TExt -> exists y, argument t (s "type") y;
  tf_args : NoDup (dkeys (ty_args t)) /\ forall k v, In (k, v) (ty_args t) -> jscalar v /\ float_only v }.
Record decoded_ok (j : jdoc) : Prop := {
  dk_props : NoDup (dkeys (jd_props j)) /\ forall k v, In (k, v) (jd_props j) -> jscalar v;
  dk_texts : NoDup (dkeys (jd_texts j)) /\ forall c u, In (c, u) (jd_texts j) -> exists x, holds_text j c x;
  dk_layers : NoDup (dkeys (jd_layers j));
  dk_fields : forall k fs rows, In (k, (fs, rows)) (jd_layers j) -> NoDup (dkeys fs) /\ zlen rows < 2147483648 /\
      forall f t, In (f, t) fs -> jtype_found t;
  dk_rows : forall k fs rows row, In (k, (fs, rows)) (jd_layers j) -> In row rows -> NoDup (dkeys row) /\ incl (dkeys row) (dkeys fs);
  dk_values : forall k fs rows row f t v, In (k, (fs, rows)) (jd_layers j) -> In row rows -> In (f, t) fs -> dget row f = Some v -> jfound j t v }.

(** ** what is left to the caller *)
(** every declared type names what exists *)
Definition names_exist (j : jdoc) : Prop := forall k fs rows f t, In (k, (fs, rows)) (jd_layers j) -> In (f, t) fs ->
  (forall c, ty_name t = JT TSpan -> argument t (s "context") c -> In c (dkeys (jd_texts j))) /\
  (forall x, In (ty_name t) [JT TNodeRef; JT TNodeRefMany; JT TNodeRefSpan] -> argument t (s "layer") x -> In x (dkeys (jd_layers j))).
(** a long among the properties and the arguments is none that an int could hold *)
Definition shortest (v : jv) : Prop := forall i, v = JLong i -> ~ int_range i.
Definition no_short_long (j : jdoc) : Prop := (forall k v, In (k, v) (jd_props j) -> shortest v) /\
  forall k fs rows f t a v, In (k, (fs, rows)) (jd_layers j) -> In (f, t) fs -> In (a, v) (ty_args t) -> shortest v.
(** a property of all values *)
Definition each_value (P : jv -> Prop) (j : jdoc) : Prop := forall k fs rows row f v, In (k, (fs, rows)) (jd_layers j) -> In row rows ->
  dget row f = Some v -> P v.
Definition forward (v : jv) : Prop := forall c a b, v = JSpan c a b -> a <= b.
Definition not_bytes (v : jv) : Prop := forall x, v <> JBin x.

(** ** the same document *)
Definition same_rows (r q : dict jv) : Prop := forall f, dget q f = dget r f.
Record same_document (j k : jdoc) : Prop := {
  sd_props : jd_props k = jd_props j;
  sd_texts : jd_texts k = jd_texts j;
  sd_layers : Forall2 (fun l m => fst m = fst l /\ fst (snd m) = fst (snd l) /\ Forall2 same_rows (snd (snd l)) (snd (snd m))) (jd_layers j) (jd_layers k) }.

(** ** rounding *)
(** the multiple q of 2^k is the one nearest to m, and of two the even one *)
Definition nearest_even (m k q : Z) : Prop :=
  forall p, p <> q -> Z.abs (q * 2 ^ k - m) < Z.abs (p * 2 ^ k - m) \/ Z.abs (q * 2 ^ k - m) = Z.abs (p * 2 ^ k - m) /\ Z.even q = true.
