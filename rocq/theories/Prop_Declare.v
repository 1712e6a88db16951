(** Property C111: declaring layers, and a document as a mapping from names to layers. *)
From Verif Require Import PyBase PyBaseFacts Model_Text Model_Heap Model_Layer Model_Types Model_Msgpack Model_Document Model_Printout Model_Declare
  Spec_Layer Spec_Types Spec_Document Spec_Declare Proof_Declare Prop_Document.
Local Open Scope Z_scope.

(** schema.set(...): the fields before the first one that is refused are declared, in order, after those that were there. *)
Theorem C111_set : forall kw fs fs' r, schema_set fs kw = (fs', r) -> exists done rest added, kw = done ++ rest /\ Forall2 gives_field done added /\ fs' = fs ++ added /\
  (NoDup (dkeys fs) -> NoDup (dkeys fs')) /\
  match r with
  | Ok _ => rest = []
  | Err e => exists k g rest', rest = (k, g) :: rest' /\ (refuses g e \/ e = ValueError /\ (exists t, gives g t) /\ In k (dkeys fs'))
  end.
Proof. exact set_spec. Qed.
Print Assumptions C111_set.

Theorem C111_set_all : forall fs kw added, NoDup (dkeys fs ++ dkeys kw) -> Forall2 gives_field kw added -> schema_set fs kw = (fs ++ added, Ok tt).
Proof. exact set_ok. Qed.
Print Assumptions C111_set_all.

(** schema.add: as set with one field, except for the exception when the field exists and its type is refused. *)
Theorem C111_add : forall fs k g, fst (schema_add fs k g) = fst (schema_set fs [(k, g)]) /\
  (~ (In k (dkeys fs) /\ exists e, refuses g e) -> schema_add fs k g = schema_set fs [(k, g)]) /\
  (In k (dkeys fs) -> schema_add fs k g = (fs, Err ValueError) /\ forall e, refuses g e -> schema_set fs [(k, g)] = (fs, Err e)).
Proof. exact add_set. Qed.
Print Assumptions C111_add.

(** Layers that do not share their schema objects know the default values of their fields, whatever is called. *)
Theorem C111_defaults : forall cs l, all_careful (mkStore [] []) cs -> (l < length (st_layers (drun (mkStore [] []) cs)))%nat -> up_to_date (drun (mkStore [] []) cs) l.
Proof. exact own_schema. Qed.
Print Assumptions C111_defaults.

(** layer.add_field: every layer with the same schema object has the field; the default values of the other layers stay as they are. *)
Theorem C111_shared : forall cs l m name t, let st := drun (mkStore [] []) cs in (l < length (st_layers st))%nat -> (m < length (st_layers st))%nat ->
  (~ In name (dkeys (declared_by st l)) -> exists st', dstep st (DField l name t) = (st', Ok tt) /\
     declared_by st' l = declared_by st l ++ [(name, t)] /\ up_to_date st' l /\
     (sl_schema (slayer_at st m) = sl_schema (slayer_at st l) -> declared_by st' m = declared_by st l ++ [(name, t)]) /\
     (sl_schema (slayer_at st m) <> sl_schema (slayer_at st l) -> declared_by st' m = declared_by st m) /\
     (m <> l -> sl_defaults (slayer_at st' m) = sl_defaults (slayer_at st m))) /\
  (In name (dkeys (declared_by st l)) -> dstep st (DField l name t) = (st, Err TypeError)).
Proof. exact shared. Qed.
Print Assumptions C111_shared.

(** With shared schema objects, or when a schema object is changed after a layer was made with it, the defaults of a layer are out of date. *)
Definition five : dtype := T_int32 (VInt 5).
Theorem C111_stale_refuted :
  (exists cs, cs = [DSchema (s "x"); DLayer 0; DLayer 0; DField 0 (s "f") five] /\ ~ up_to_date (drun (mkStore [] []) cs) 1%nat) /\
  (exists cs, cs = [DSchema (s "x"); DLayer 0; DAdd 0 (s "f") (GType five)] /\ ~ up_to_date (drun (mkStore [] []) cs) 0%nat) /\
  (exists cs, cs = [DSchema (s "x"); DSet 0 [(s "f", GCall (Ok (Some five)))]; DLayer 0; DLayer 0; DRemove 1 (s "f")] /\ ~ up_to_date (drun (mkStore [] []) cs) 0%nat).
Proof.
  split; [|split]; eexists; (split; [reflexivity|]); intros U; specialize (U (s "f") (VInt 5)).
  - assert (E : In (s "f", VInt 5) []) by (apply U; exists five; vm_compute; split; [left; reflexivity|split; [reflexivity|discriminate]]). exact E.
  - assert (E : In (s "f", VInt 5) []) by (apply U; exists five; vm_compute; split; [left; reflexivity|split; [reflexivity|discriminate]]). exact E.
  - destruct U as [U _]. assert (X : exists t : dtype, In (s "f", t) [] /\ dget (dt_opts t) (s "default") = Some (VInt 5) /\ VInt 5 <> VNone) by (apply U; vm_compute; left; reflexivity). destruct X as (t & [] & _).
Qed.
Print Assumptions C111_stale_refuted.

(** document.add_layer(name, field = type, ...) *)
Theorem C111_layer : forall h d name kw, NoDup (dkeys (d_layers d)) ->
  (forall added, NoDup (dkeys kw) -> Forall2 gives_field kw added -> exists h1 d1 l, declare_layer h d name kw = (h1, d1, Ok l) /\
     doc_getitem d1 name = Ok l /\ l_nameof h1 l = name /\ l_fields (h_layer h1 l) = added /\ layer_iter h1 l = [] /\
     doc_contains d1 name = true /\ (forall x, x <> name -> doc_getitem d1 x = doc_getitem d x /\ doc_contains d1 x = doc_contains d x) /\
     d_texts d1 = d_texts d /\ d_props d1 = d_props d /\ NoDup (dkeys (d_layers d1))) /\
  (forall done added k g rest e, kw = done ++ (k, g) :: rest -> NoDup (dkeys done) -> Forall2 gives_field done added -> refuses g e -> declare_layer h d name kw = (h, d, Err e)).
Proof. exact mapping. Qed.
Print Assumptions C111_layer.

(** del document[name] is remove_layer: a name that is not there is no error. *)
Theorem C111_delete : forall h d name, NoDup (dkeys (d_layers d)) -> (forall k f t, declared h d k f t -> option_ok t) ->
  (doc_contains d name = true <-> exists l, doc_getitem d name = Ok l) /\
  (doc_contains d name = false -> doc_getitem d name = Err KeyError /\ doc_delitem h d name = Ok d) /\
  (doc_contains d name = true -> (exists k f t, declared h d k f t /\ k <> name /\ refers_to name t) -> doc_delitem h d name = Err DataValidationError) /\
  (doc_contains d name = true -> ~ (exists k f t, declared h d k f t /\ k <> name /\ refers_to name t) -> exists d', doc_delitem h d name = Ok d' /\
     doc_contains d' name = false /\ (forall x, x <> name -> doc_getitem d' x = doc_getitem d x) /\ d_texts d' = d_texts d /\ d_props d' = d_props d).
Proof. exact deleting. Qed.
Print Assumptions C111_delete.

(** document.maintext *)
Theorem C111_maintext : forall d m,
  (In (s "main") (dkeys (d_texts d)) -> assign_maintext d m = Err AssertionError /\ exists x, get_maintext d = Ok x) /\
  (~ In (s "main") (dkeys (d_texts d)) -> get_maintext d = Err KeyError /\
     match m with
     | MGStr x => exists d', assign_maintext d m = Ok d' /\ get_maintext d' = Ok x /\ d_texts d' = d_texts d ++ [(s "main", x)] /\ d_layers d' = d_layers d /\ d_props d' = d_props d
     | MGText n x => (n = s "main" -> assign_maintext d m = assign_maintext d (MGStr x)) /\ (n <> s "main" -> assign_maintext d m = Err AssertionError)
     | MGOther => assign_maintext d m = Err ValueError
     end).
Proof. exact maintexts. Qed.
Print Assumptions C111_maintext.

(** repr(document) tells the numbers of layers and of texts. *)
Theorem C111_repr : forall d d' x, doc_repr d = Ok x -> doc_repr d' = Ok x -> length (d_layers d) = length (d_layers d') /\ length (d_texts d) = length (d_texts d').
Proof. exact repr_counts. Qed.
Print Assumptions C111_repr.

(** Cases: a schema in which the second of three fields is refused; two layers with schema objects of their own; the sample document. *)
Example C111_case :
  schema_set [(s "a", five)] [(s "b", GType five); (s "c", GCall (Ok None)); (s "d", GType five)] = ([(s "a", five); (s "b", five)], Err AssertionError) /\
  schema_set [(s "a", five)] [(s "a", GType five)] = ([(s "a", five)], Err ValueError) /\
  schema_add [(s "a", five)] (s "a") GOther = ([(s "a", five)], Err ValueError) /\ schema_set [(s "a", five)] [(s "a", GOther)] = ([(s "a", five)], Err AssertionError) /\
  schema_set [] [(s "a", GCall (Err KeyError))] = ([], Err KeyError) /\
  let cs := [DSchema (s "x"); DSchema (s "y"); DSet 0 [(s "f", GType five)]; DLayer 0; DLayer 1; DField 1 (s "g") five; DField 0 (s "h") five; DRemove 0 (s "f"); DField 0 (s "h") five] in
  all_careful (mkStore [] []) cs /\ st_layers (drun (mkStore [] []) cs) = [mkSL 0 [(s "h", VInt 5)]; mkSL 1 [(s "g", VInt 5)]] /\
  doc_getitem sample_doc (s "token") = Ok 0%nat /\ doc_contains sample_doc (s "nothing") = false /\ doc_delitem doc_heap sample_doc (s "token") = Err DataValidationError /\
  doc_repr (mkDoc (MMap [(s "id", MInt 5); (s "title", MStr (s "x")); (s "ok", MBool true)]) [(s "main", [])] [(s "token", 0%nat); (s "phrase", 1%nat)]) = Ok (s "Document(2 layers, 1 texts, id=5, title=x, ok=True)") /\
  doc_repr (mkDoc (MMap []) [] []) = Ok (s "Document(0 layers, 0 texts)").
Proof.
  repeat (split; [reflexivity|]). cbn zeta. split.
  - cbn [all_careful]. repeat split; try exact Logic.I; intros (l & x & E & U); vm_compute in E; repeat (destruct l as [|l]; [try discriminate; injection E as <-; discriminate|]); destruct l; discriminate.
  - vm_compute. repeat split.
Qed.
