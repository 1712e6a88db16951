(** Properties C19-C21 and C55-C56: field types and validation; C16 with validity spelled out. *)
From Verif Require Import PyBase PyBaseFacts Model_Heap Model_Layer Model_Types Spec_Layer Spec_History Spec_Types
  Proof_Heap Proof_Layer Proof_Layer4 Proof_Types.
Local Open Scope Z_scope.

(** C16: the declared fields of an added node hold admitted values *)
Theorem C16_add_valid : forall h l kw h' n, wf h -> (l < h_lnext h)%nat -> schema_ok h l -> layer_add_kw h l kw = (h', Ok n) ->
  node_valid h' l n.
Proof. exact add_valid. Qed.
Print Assumptions C16_add_valid.

(** C19 *)
Theorem C19_scalar_ranges : forall h d v,
  (dt_class d = KInt32 -> exists b, is_valid h d v = Ok b /\ (b = true <-> exists i, int_value v i /\ -2^31 <= i <= 2^31 - 1)) /\
  (dt_class d = KInt64 -> exists b, is_valid h d v = Ok b /\ (b = true <-> exists i, int_value v i /\ -2^63 <= i <= 2^63 - 1)) /\
  (dt_class d = KFloat -> exists b, is_valid h d v = Ok b /\ (b = true <-> exists x, v = VFloat x)) /\
  (dt_class d = KBool -> exists b, is_valid h d v = Ok b /\ (b = true <-> exists x, v = VBool x)) /\
  (dt_class d = KString -> exists b, is_valid h d v = Ok b /\ (b = true <-> exists x, v = VStr x /\ zlen x < 2^31)) /\
  (dt_class d = KBinary -> exists b, is_valid h d v = Ok b /\ (b = true <-> exists x, v = VBytes x /\ zlen x < 2^31)).
Proof. exact numeric_exact. Qed.
Print Assumptions C19_scalar_ranges.
(** all types: is_valid is True exactly on the admitted values *)
Theorem C19_is_valid : forall h d v, (exists name, type_ok d name) -> (is_valid h d v = Ok true <-> accepts h d v).
Proof. exact is_valid_accepts. Qed.
Print Assumptions C19_is_valid.
Theorem C19_constructors : forall v name,
  (exists n, type_ok (T_int32 v) n) /\ (exists n, type_ok (T_int64 v) n) /\ (exists n, type_ok (T_float64 v) n) /\
  (exists n, type_ok (T_string v) n) /\ (exists n, type_ok (T_bool v) n) /\ type_ok T_binary name /\
  type_ok (T_span name) name /\ type_ok (T_noderef name) name /\ type_ok (T_noderef_many name) name /\ type_ok (T_nodespan name) name /\
  type_ok (T_ext name) name.
Proof. exact constructors_ok. Qed.
Print Assumptions C19_constructors.
Example C19_case : is_valid empty_heap (T_int32 VNone) (VInt (2^31 - 1)) = Ok true /\ is_valid empty_heap (T_int32 VNone) (VInt (2^31)) = Ok false
  /\ is_valid empty_heap (T_int64 VNone) (VInt (- 2^63)) = Ok true /\ is_valid empty_heap (T_int64 VNone) (VInt (- 2^63 - 1)) = Ok false
  /\ is_valid empty_heap (T_int32 VNone) (VBool true) = Ok true /\ is_valid empty_heap (T_float64 VNone) (VInt 0) = Ok false.
Proof. vm_compute. repeat split. Qed.

(** C20: partial, because validate can return False: see the second clause and the witness *)
Theorem C20_validate_partial : forall h l n, wf h -> n_collof h n = Some l -> schema_ok h l ->
  (validate h l n = Ok true <-> node_valid h l n) /\
  (validate h l n = Ok false -> exists f d v, dget (l_fields (h_layer h l)) f = Some d /\ dget (n_fieldsof h n) f = Some v /\
     ~ accepts h d v /\ dt_class d = KNodespan /\ exists m, v = VNode m).
Proof. exact validate_spec. Qed.
Print Assumptions C20_validate_partial.
Definition three : heap := exec_all Z.leb empty_heap
  [OLayer (s "t") [(s "ns", T_nodespan (s "t")); (s "r", T_noderef (s "t"))];
   OAdd 0%nat []; OAdd 0%nat [(s "r", VNode 0%nat)]; OAdd 0%nat [(s "ns", VNodeSpan 0%nat 1%nat)];
   OSetField 1%nat (s "ns") (VNode 1%nat); OSetField 0%nat (s "r") (VInt 5)].
Lemma three_wf : wf three.
Proof. apply ops_ok_wf, ops_okb_sound. vm_compute. reflexivity. Qed.
Lemma three_schema : schema_ok three 0%nat.
Proof.
  intros f d H. exists (s "t"). vm_compute in H.
  repeat match type of H with (if ?b then _ else _) = _ => destruct b end; try discriminate; injection H as <-; vm_compute; auto.
Qed.
Example C20_case : wf three /\ schema_ok three 0%nat /\ n_collof three 2%nat = Some 0%nat /\ validate three 0%nat 2%nat = Ok true
  /\ validate three 0%nat 0%nat = Err AttributeError.
Proof. split; [exact three_wf|]. split; [exact three_schema|]. vm_compute. repeat split. Qed.
Theorem C20_returns_false_refuted : exists h l n, wf h /\ n_collof h n = Some l /\ schema_ok h l /\ validate h l n = Ok false.
Proof. exists three, 0%nat, 1%nat. split; [exact three_wf|]. split; [vm_compute; reflexivity|]. split; [exact three_schema|]. vm_compute. reflexivity. Qed.
Print Assumptions C20_returns_false_refuted.

(** C21 *)
Theorem C21_join : forall a b, numeric (dt_name a) -> numeric (dt_name b) ->
  exists c, cast_up a b = Ok c /\ (c = a \/ c = b) /\
    num_le (dt_name a) (dt_name c) /\ num_le (dt_name b) (dt_name c) /\
    (forall t, num_le (dt_name a) t -> num_le (dt_name b) t -> num_le (dt_name c) t) /\
    (exists c', cast_up b a = Ok c' /\ dt_name c' = dt_name c).
Proof. exact cast_up_join. Qed.
Print Assumptions C21_join.
Theorem C21_assoc : forall a b c, numeric (dt_name a) -> numeric (dt_name b) -> numeric (dt_name c) ->
  (let* x := cast_up a b in cast_up x c) = (let* y := cast_up b c in cast_up a y).
Proof. exact cast_up_assoc'. Qed.
Print Assumptions C21_assoc.
Theorem C21_idem : forall a, numeric (dt_name a) -> cast_up a a = Ok a.
Proof. exact cast_up_idem. Qed.
Print Assumptions C21_idem.
Theorem C21_fails : forall a b, ~ (numeric (dt_name a) /\ numeric (dt_name b)) -> cast_up a b = Err AssertionError.
Proof. exact cast_up_fails. Qed.
Print Assumptions C21_fails.
Theorem C21_possible : forall a b, cast_up_possible a b = true <->
  dt_name a = dt_name b \/ (numeric (dt_name a) /\ numeric (dt_name b)).
Proof. exact cast_up_possible_iff. Qed.
Print Assumptions C21_possible.
Example C21_case : numeric (dt_name (T_int32 VNone)) /\ cast_up (T_int32 VNone) (T_float64 VNone) = Ok (T_float64 VNone)
  /\ cast_up (T_int64 (VInt 3)) (T_bool VNone) = Ok (T_int64 (VInt 3)) /\ cast_up (T_string VNone) (T_int32 VNone) = Err AssertionError.
Proof. vm_compute. intuition. Qed.

(** C55: the default given to a type constructor is the type's default, and is admitted by the type *)
Theorem C55_int_defaults : forall h i,
  (dt_default (T_int32 (VInt i)) = Some (VInt i) /\ (-2147483648 <= i <= 2147483647 -> accepts h (T_int32 (VInt i)) (VInt i))) /\
  (dt_default (T_int64 (VInt i)) = Some (VInt i) /\ (-9223372036854775808 <= i <= 9223372036854775807 -> accepts h (T_int64 (VInt i)) (VInt i))).
Proof. exact int_default_ok. Qed.
Print Assumptions C55_int_defaults.
Theorem C55_string_defaults : forall h x, dt_default (T_string (VStr x)) = Some (VStr x) /\ accepts h (T_string (VStr x)) (VStr x).
Proof. exact string_default_ok. Qed.
Print Assumptions C55_string_defaults.
Theorem C55_bool_defaults : forall h b, dt_default (T_bool (VBool b)) = Some (VBool b) /\ accepts h (T_bool (VBool b)) (VBool b).
Proof. exact bool_default_ok. Qed.
Print Assumptions C55_bool_defaults.
Example C55_case : dt_default (T_int32 (VInt 7)) = Some (VInt 7) /\ dt_default (T_string (VStr (s "x"))) = Some (VStr (s "x"))
  /\ dt_default (T_bool (VBool false)) = Some (VBool false).
Proof. vm_compute. repeat split. Qed.
(** float64: a given default is lost, and the default of float64(0.0) is the int 0, which the type itself rejects,
    so that add without a value for the field raises *)
Theorem C55_float_default_lost_refuted : exists x, dt_default (T_float64 (VFloat x)) <> Some (VFloat x).
Proof. exists 0x3FF8000000000000%N. vm_compute. discriminate. Qed.
Print Assumptions C55_float_default_lost_refuted.
Theorem C55_float_default_invalid_refuted : exists d v, d = T_float64 (VFloat 0) /\ dt_default d = Some v /\
  (forall h, is_valid h d v = Ok false) /\
  snd (layer_add_kw (exec_all Z.leb empty_heap [OLayer (s "l") [(s "x", d)]]) 0%nat []) = Err AssertionError.
Proof. exists (T_float64 (VFloat 0)), (VInt 0). vm_compute. repeat split. Qed.
Print Assumptions C55_float_default_invalid_refuted.

(** C56: typeof(value) admits the value *)
Theorem C56_typeof_partial : forall h v cmp d, typeof h v cmp = Ok d ->
  (forall i, v = VInt i -> -9223372036854775808 <= i <= 9223372036854775807) ->
  (forall x, v = VStr x -> zlen x < 2147483648) -> (forall x, v = VBytes x -> zlen x < 2147483648) ->
  (forall a b, v = VNodeSpan a b -> new_nodespan h a b = Ok (a, b)) ->
  (forall c, cmp = Some c -> exists name, type_ok c name) ->
  accepts h d v.
Proof. exact typeof_admits. Qed.
Print Assumptions C56_typeof_partial.
Example C56_case : typeof demo (VNode 1%nat) None = Ok (T_noderef (s "token")) /\ typeof demo (VInt 5) (Some (T_int32 VNone)) = Ok (T_int32 (VInt 0))
  /\ typeof demo (VNodeList [Some 1%nat; Some 3%nat]) None = Ok (T_noderef_many (s "token")).
Proof. vm_compute. repeat split. Qed.
Theorem C56_big_int_refuted : exists v d, typeof empty_heap v None = Ok d /\ is_valid empty_heap d v = Ok false.
Proof. exists (VInt (2^63)), (T_int64 (VInt 0)). vm_compute. split; reflexivity. Qed.
Print Assumptions C56_big_int_refuted.
