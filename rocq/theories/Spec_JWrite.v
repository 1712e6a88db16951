(** Which documents of the Java port are written: the number of bytes they need at most, and what is refused. *)
From Verif Require Import PyBase Model_Text Model_Heap Model_Layer Model_Types Model_Msgpack Model_JCodec Spec_Msgpack Spec_JCodec Spec_JEncode.
Local Open Scope Z_scope.

Definition sum {A} (f : A -> Z) (l : list A) : Z := fold_right (fun x n => f x + n) 0 l.
(** ** bytes *)
(** five bytes for the head, four for a character *)
Definition str_weight (x : pystr) : Z := 5 + 4 * zlen x.
Definition value_weight (v : jv) : Z :=
  match v with
  | JStr x => str_weight x
  | JBin x | JExt _ x => 5 + zlen x
  | JNodes _ ps => 5 + 9 * zlen ps
  | JNodeSpan _ _ _ => 23
  | JSpan _ _ _ => 18
  | _ => 9
  end.
Definition pair_weight (kv : pystr * jv) : Z := str_weight (fst kv) + value_weight (snd kv).
(** nine bytes for a unit of UTF-16: it may be a part of its own *)
Definition text_weight (cu : pystr * list N) : Z := str_weight (fst cu) + 10 + 9 * zlen (snd cu).
Definition field_weight (ft : pystr * jdtype) : Z := str_weight (fst ft) + 69 + sum pair_weight (ty_args (snd ft)).
Definition row_weight (fs : dict jdtype) (row : dict jv) : Z :=
  sum (fun ft => match dget row (fst ft) with Some v => value_weight v | None => 2 end) fs.
Definition layer_weight (kl : pystr * (dict jdtype * list (dict jv))) : Z :=
  str_weight (fst kl) + 27 + sum field_weight (fst (snd kl)) + sum (row_weight (fst (snd kl))) (snd (snd kl)).
Definition doc_weight (j : jdoc) : Z :=
  37 + sum pair_weight (jd_props j) + sum text_weight (jd_texts j) + sum layer_weight (jd_layers j).

(** ** characters: no unpaired surrogates in names and strings *)
Definition chars (v : jv) : Prop := match v with JStr x => Forall scalar x | _ => True end.
Definition pair_chars (kv : pystr * jv) : Prop := Forall scalar (fst kv) /\ chars (snd kv).
Record doc_chars (j : jdoc) : Prop := {
  dc_props : Forall pair_chars (jd_props j);
  dc_texts : Forall (fun cu => Forall scalar (fst cu)) (jd_texts j);
  dc_layers : forall k fs rows, In (k, (fs, rows)) (jd_layers j) -> Forall scalar k /\
      (forall f t, In (f, t) fs -> Forall scalar f /\ Forall pair_chars (ty_args t)) /\
      forall row f t v, In row rows -> In (f, t) fs -> dget row f = Some v -> chars v }.

(** ** what is refused *)
(** the types of all fields, in the order of the maps *)
Definition field_types (j : jdoc) : list jdtype := flat_map (fun kl => map snd (fst (snd kl))) (jd_layers j).
(** the argument that must name something of the document *)
Definition naming (t : jdtype) (key : pystr) : Prop :=
  ty_name t = JT TSpan /\ key = s "context" \/ (ty_name t = JT TNodeRef \/ ty_name t = JT TNodeRefMany) /\ key = s "layer".
Definition there (j : jdoc) (t : jdtype) (x : pystr) : Prop :=
  match ty_name t with JT TSpan => In x (dkeys (jd_texts j)) | _ => In x (dkeys (jd_layers j)) end.
Definition fine (j : jdoc) (t : jdtype) : Prop := forall key, naming t key -> exists x, argument t key x /\ there j t x.
Definition absent (j : jdoc) (t : jdtype) : Prop := exists key x, naming t key /\ argument t key x /\ ~ there j t x.
Definition nameless (t : jdtype) : Prop := exists key, naming t key /\ dget (ty_args t) key = None.
(** a field of spans holds something else *)
Definition no_span (v : jv) : Prop := forall c a b, v <> JSpan c a b.
Definition spanless (j : jdoc) : Prop := exists k fs rows row f t v,
  In (k, (fs, rows)) (jd_layers j) /\ In row rows /\ In (f, t) fs /\ ty_name t = JT TSpan /\ dget row f = Some v /\ no_span v.

(** ** too long: texts are strings and fields are maps of Java, whose sizes are ints *)
Definition java_sizes (j : jdoc) : Prop := (forall c u, In (c, u) (jd_texts j) -> zlen u < 2147483648) /\
  forall k fs rows, In (k, (fs, rows)) (jd_layers j) -> zlen fs < 2147483648.
(** a property alone that takes 2 GiB *)
Definition huge (v : jv) : Prop := match v with JStr x => 2147483648 <= zlen x | JBin x => 2147483648 <= zlen x | _ => False end.
