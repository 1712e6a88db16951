(** What Values.get is to make of objects, which values are equal, and what becomes of a document value. *)
From Verif Require Import PyBase Model_Text Model_Heap Model_Layer Model_Types Model_JUnits Model_JCodec Model_JEncode Model_JEdit Model_JValue Model_JValue2 Spec_JValue.
Local Open Scope Z_scope.
(** ** objects and their values *)
Definition plain_element (e : element) (x : option (pystr * nat)) : Prop := match e with ENode l i => x = Some (l, i) | ENull => x = None | EOther => False end.
Inductive boxed : jobject -> made -> Prop :=
| bx_null : boxed ONull (MValue None)
| bx_value v : boxed (OValue v) (MValue v)
| bx_int i : boxed (OInteger i) (MValue (Some (JInt i)))
| bx_long i : boxed (OLong i) (MValue (Some (JLong i)))
| bx_float b : boxed (OFloat b) (MValue (Some (JDouble b)))
| bx_double b : boxed (ODouble b) (MValue (Some (JDouble b)))
| bx_string x : boxed (OString x) (MValue (Some (JStr x)))
| bx_bytes x : boxed (OBytes x) (MValue (Some (JBin x)))
| bx_bool b : boxed (OBoolean b) (MValue (Some (JBool b)))
| bx_array l is : is <> [] -> boxed (ONodes (map (fun i => Some (l, i)) is)) (MNodes (map (fun i => Some (l, i)) is))
| bx_list l i es x xs : x = Some (l, i) -> Forall2 plain_element es xs -> boxed (OList (ENode l i :: es)) (MNodes (x :: xs)).
(** ** equality *)
Definition nan (b : N) : Prop := d_exp b = 2047 /\ d_frac b <> 0.
Inductive same_value : option jv -> option jv -> Prop :=
| sv_null : same_value None None
| sv_int i : same_value (Some (JInt i)) (Some (JInt i))
| sv_long i : same_value (Some (JLong i)) (Some (JLong i))
| sv_double b : same_value (Some (JDouble b)) (Some (JDouble b))
| sv_nan a b : nan a -> nan b -> same_value (Some (JDouble a)) (Some (JDouble b))
| sv_bool b : same_value (Some (JBool b)) (Some (JBool b))
| sv_string x y : utf16 x = utf16 y -> same_value (Some (JStr x)) (Some (JStr y))
| sv_bytes x : same_value (Some (JBin x)) (Some (JBin x))
| sv_node l i : same_value (Some (JNode l i)) (Some (JNode l i)).
(** all doubles are 64 bits *)
Definition proper (v : option jv) : Prop := match v with Some (JDouble b) => is_double b | _ => True end.
(** ** document values: the edits among the calls, and whether the document was asked for *)
Definition edits_of (cs : list dvcall) : list edit := flat_map (fun c => match c with DVEdit e => [e] | _ => [] end) cs.
Definition asked_for (cs : list dvcall) : bool := existsb (fun c => match c with DVBinary => false | _ => true end) cs.
Definition edited (j : jdoc) (es : list edit) : jdoc := fold_left (fun d e => fst (run_edit e d)) es j.
(** ** the sum of c_k 31^(n-1-k) *)
Fixpoint weigh (l : list Z) : Z := match l with [] => 0 | c :: r => c * 31 ^ Z.of_nat (length r) + weigh r end.
(** the signed number with the same eight bits *)
Definition to_signed (c : Z) : Z := if c <? 128 then c else c - 256.
(** an int that differs from x by a multiple of 2^32 *)
Definition int_of (x i : Z) : Prop := - 2 ^ 31 <= i < 2 ^ 31 /\ exists k, i = x + k * 2 ^ 32.
