(** What becomes of field values that are written without validation. *)
From Verif Require Import PyBase Model_Text Model_Heap Model_Layer Model_Types Model_Msgpack Model_Document Spec_Layer Spec_Types Spec_Msgpack Spec_Document Spec_Codec Spec_Query.
From Verif Require Spec_Xml.
From Coq Require Import QArith Qabs.
Local Open Scope Z_scope.

(** q without its fraction *)
Definition whole (q : Q) (i : Z) : Prop :=
  ((0 <= q)%Q /\ (inject_Z i <= q < inject_Z (i + 1))%Q) \/ ((q <= 0)%Q /\ (inject_Z (i - 1) < q <= inject_Z i)%Q).
(** of all doubles b is nearest to the integer i; if it is not the only one, its last bit is 0; zero is the positive one *)
Definition nearest (i : Z) (b : N) : Prop :=
  (0 <= i <-> (b < 2 ^ 63)%N) /\ (b < 2 ^ 64)%N /\
  exists x, number (VFloat b) x /\
  forall b' x', number (VFloat b') x' -> (Qabs (x - inject_Z i) <= Qabs (x' - inject_Z i))%Q /\
    ((Qabs (x - inject_Z i) == Qabs (x' - inject_Z i))%Q -> (x == x')%Q \/ N.even b = true).
(** decimal digits, with single underscores between them *)
Inductive numeral : pystr -> Z -> Prop :=
| nm_one d : (d < 10)%N -> numeral [(48 + d)%N] (Z.of_N d)
| nm_digit x k d : numeral x k -> (d < 10)%N -> numeral (x ++ [(48 + d)%N]) (10 * k + Z.of_N d)
| nm_joined x k d : numeral x k -> (d < 10)%N -> numeral (x ++ [95%N; (48 + d)%N]) (10 * k + Z.of_N d).
Definition blank (c : N) : Prop := (9 <= c <= 13 \/ c = 32)%N.
(** x spells the integer i *)
Definition spelled (x : pystr) (i : Z) : Prop :=
  exists a sign t b k, x = a ++ sign ++ t ++ b /\ Forall blank a /\ Forall blank b /\ numeral t k /\
    ((i = k /\ (sign = [] \/ sign = [43%N])) \/ (i = - k /\ sign = [45%N])).
Definition is_ascii (x : list N) : Prop := Forall (fun c => (c < 128)%N) x.
(** text that prints like the byte string x: hexadecimal escapes of two digits *)
Definition hex (k : N) : N := nth (N.to_nat k) (s "0123456789abcdef") 0%N.
Inductive byte_shown (quote : N) : N -> pystr -> Prop :=
| bs_quote c : c = quote \/ c = 92%N -> byte_shown quote c [92%N; c]
| bs_tab : byte_shown quote 9%N (s "\t")
| bs_nl : byte_shown quote 10%N (s "\n")
| bs_cr : byte_shown quote 13%N (s "\r")
| bs_plain c : (32 <= c < 127)%N -> c <> quote -> c <> 92%N -> byte_shown quote c [c]
| bs_hex a b : (a < 16)%N -> (b < 16)%N -> (16 * a + b < 32 \/ 127 <= 16 * a + b)%N -> ~ In (16 * a + b)%N [9; 10; 13]%N ->
    byte_shown quote (16 * a + b)%N (s "\x" ++ [hex a; hex b]).
Definition bytes_shown (x : list N) (y : pystr) : Prop :=
  exists quote parts, y = s "b" ++ [quote] ++ List.concat parts ++ [quote] /\ Forall2 (byte_shown quote) x parts /\
    ((quote = 34%N /\ In 39%N x /\ ~ In 34%N x) \/ (quote = 39%N /\ (In 39%N x -> In 34%N x))).
(** has no elements *)
Inductive hollow (h : heap) : value -> Prop :=
| ho_str : hollow h (VStr [])
| ho_bytes : hollow h (VBytes [])
| ho_span c t a : hollow h (VSpan c t a a)
| ho_node n : n_fieldsof h n = [] -> hollow h (VNode n)
| ho_list : hollow h (VNodeList []).
(** the truth of a value: false are None, False, the numbers 0 and what has no elements *)
Inductive falsy (h : heap) : value -> Prop :=
| fa_none : falsy h VNone
| fa_zero v x : number v x -> (x == 0)%Q -> falsy h v
| fa_hollow v : hollow h v -> falsy h v.
(** values as Python has them: floats have 64 bits, bytes are bytes, text spans are inside their text *)
Definition proper (v : value) : Prop :=
  match v with
  | VFloat b => (b < 2 ^ 64)%N
  | VBytes x => bytes x
  | VSpan _ t a b => 0 <= a <= b /\ b <= zlen t
  | _ => True
  end.
(** values whose truth is known: not unknown objects; of a node span, that it has a node *)
Definition has_truth (h : heap) (v : value) : Prop :=
  match v with VNodeSpan a b => exists n ns, nodespan_iter h a b = Ok (n :: ns) | VOther _ => False | _ => True end.

(** a value v, given for a field of the type t, is written as if it were v' *)
Inductive converts (h : heap) : tname -> value -> value -> Prop :=
| cv_int_bool t (b : bool) : In t [TI32; TI64] -> converts h t (VBool b) (VInt (if b then 1 else 0))
| cv_int_float t b x i : In t [TI32; TI64] -> number (VFloat b) x -> whole x i -> converts h t (VFloat b) (VInt i)
| cv_int_str t x i : In t [TI32; TI64] -> is_ascii x -> spelled x i -> converts h t (VStr x) (VInt i)
| cv_int_bytes t x i : In t [TI32; TI64] -> spelled x i -> converts h t (VBytes x) (VInt i)
| cv_float_int v i b : v = VInt i \/ v = VBool (negb (i =? 0)) /\ 0 <= i <= 1 -> nearest i b -> Z.abs i < 2 ^ 1024 - 2 ^ 970 -> converts h TF64 v (VFloat b)
| cv_true v : has_truth h v -> ~ falsy h v -> converts h TBool v (VBool true)
| cv_false v : has_truth h v -> falsy h v -> v <> VNone -> converts h TBool v (VBool false)
| cv_str_int i x : Spec_Xml.int_text i x -> converts h TString (VInt i) (VStr x)
| cv_str_bool (b : bool) : converts h TString (VBool b) (VStr (if b then s "True" else s "False"))
| cv_str_bytes x y : bytes x -> bytes_shown x y -> converts h TString (VBytes x) (VStr y)
| cv_str_span c t a b : converts h TString (VSpan c t a b) (VStr (firstn (Z.to_nat (b - a)) (skipn (Z.to_nat a) t)))
| cv_bytes_int v i : v = VInt i \/ v = VBool (negb (i =? 0)) /\ 0 <= i <= 1 -> 0 <= i < 2 ^ 63 -> converts h TBinary v (VBytes (repeat 0%N (Z.to_nat i)))
| cv_bytes_hollow v : hollow h v -> v <> VStr [] -> converts h TBinary v (VBytes []).
(** ... or refused *)
Definition no_number (v : value) : Prop := match v with VSpan _ _ _ _ | VNode _ | VNodeSpan _ _ | VNodeList _ | VExt _ _ => True | _ => False end.
Inductive refuses (h : heap) : tname -> value -> exn -> Prop :=
| rf_int_nan t v : In t [TI32; TI64] -> nan v -> refuses h t v ValueError
| rf_int_inf t v g : In t [TI32; TI64] -> infinite g v -> refuses h t v OverflowError
| rf_int_text t v x : In t [TI32; TI64] -> v = VStr x /\ is_ascii x \/ v = VBytes x -> ~ (exists i, spelled x i) -> refuses h t v ValueError
| rf_number t v : In t [TI32; TI64; TF64] -> no_number v -> refuses h t v TypeError
| rf_float_int i : 2 ^ 1024 - 2 ^ 970 <= Z.abs i -> refuses h TF64 (VInt i) OverflowError
| rf_bool_span a b e : nodespan_iter h a b = Err e -> refuses h TBool (VNodeSpan a b) e
| rf_bytes_negative i : - 2 ^ 63 <= i < 0 -> refuses h TBinary (VInt i) ValueError
| rf_bytes_large i : ~ (- 2 ^ 63 <= i < 2 ^ 63) -> refuses h TBinary (VInt i) OverflowError
| rf_bytes_plain v : match v with VStr _ | VFloat _ | VExt _ _ => True | _ => False end -> refuses h TBinary v TypeError
| rf_bytes_elems v : match v with VSpan _ _ _ _ | VNode _ | VNodeList (Some _ :: _) => True | _ => False end -> ~ hollow h v -> refuses h TBinary v TypeError
| rf_bytes_span a b : (exists n ns, nodespan_iter h a b = Ok (n :: ns)) -> refuses h TBinary (VNodeSpan a b) TypeError
| rf_bytes_lost a b e : nodespan_iter h a b = Err e -> refuses h TBinary (VNodeSpan a b) e.
(** ... or beyond the model *)
Inductive uncovered : tname -> value -> Prop :=
| uc_other t k : uncovered t (VOther k)
| uc_int_text t x : In t [TI32; TI64] -> ~ is_ascii x \/ 4300 < zlen x -> uncovered t (VStr x)
| uc_int_bytes t x : In t [TI32; TI64] -> 4300 < zlen x -> uncovered t (VBytes x)
| uc_float v : match v with VStr _ | VBytes _ => True | _ => False end -> uncovered TF64 v
| uc_str v : match v with VFloat _ | VNode _ | VNodeSpan _ _ | VNodeList _ | VExt _ _ => True | _ => False end -> uncovered TString v
| uc_bytes l : uncovered TBinary (VNodeList (None :: l)).
Definition plain_type (t : tname) : Prop := In t [TI32; TI64; TF64; TBool; TString; TBinary].
(** the value is of the type already *)
Definition of_type (t : tname) (v : value) : Prop :=
  match v with
  | VNone => True | VInt _ => In t [TI32; TI64] | VFloat _ => t = TF64 | VBool _ => t = TBool | VStr _ => t = TString | VBytes _ => t = TBinary
  | _ => False
  end.

(** a document in which fields of plain types hold anything; other fields hold admissible values *)
Record doc_loose (h : heap) (d : doc) : Prop := {
  dl_wf : wf h;
  dl_known : known h d;
  dl_texts : NoDup (dkeys (d_texts d));
  dl_layers : NoDup (dkeys (d_layers d));
  dl_props : python_value (d_props d);
  dl_types : forall k f t, declared h d k f t -> type_encodable t;
  dl_values : forall k l n f v t, doc_node h d k l n -> dget (n_fieldsof h n) f = Some v -> dget (l_fields (h_layer h l)) f = Some t ->
      value_ok h d t v \/ plain_type (dt_name t) /\ proper v }.
(** ... with the value of a field before and after *)
Inductive kept_or_converted (h : heap) (t : dtype) : option value -> option value -> Prop :=
| kc_kept o : kept_or_converted h t o o
| kc_converted v v' : converts h (dt_name t) v v' -> kept_or_converted h t (Some v) (Some v').
Record loose_layer (h : heap) (d : doc) (h' : heap) (d' : doc) (l l' : lid) : Prop := {
  ll_fields : l_fields (h_layer h' l') = map (fun ft => (fst ft, base_type (snd ft))) (l_fields (h_layer h l));
  ll_len : length (layer_iter h' l') = length (layer_iter h l);
  ll_values : forall p n n' f t, at_pos h l p n -> at_pos h' l' p n' -> dget (l_fields (h_layer h l)) f = Some t ->
      exists o, kept_or_converted h t (dget (n_fieldsof h n) f) o /\
        same_value h (same_node h d h' d') t o (dget (n_fieldsof h' n') f);
  ll_keys : forall p n' f, at_pos h' l' p n' -> In f (dkeys (n_fieldsof h' n')) -> In f (dkeys (l_fields (h_layer h l))) }.
Record loose_doc (h : heap) (d : doc) (h' : heap) (d' : doc) : Prop := {
  ld_props : d_props d' = d_props d;
  ld_texts : d_texts d' = d_texts d;
  ld_layers : Forall2 (fun kl kl' => fst kl' = fst kl /\ l_nameof h' (snd kl') = fst kl /\ loose_layer h d h' d' (snd kl) (snd kl'))
                (d_layers d) (d_layers d') }.
