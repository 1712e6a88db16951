(** JSON as a grammar: which texts stand for which value.  [fparse] gives the float for the text of a number with a fraction or an exponent. *)
From Verif Require Import PyBase Model_Msgpack Model_Heap Model_Types Model_Document Spec_Document Spec_Printout.
Local Open Scope N_scope.

Definition blank (x : pystr) : Prop := Forall (fun c => c = 32 \/ c = 9 \/ c = 10 \/ c = 13) x.

(** ** Strings *)
Definition high (c : N) : Prop := 55296 <= c <= 56319.
Definition low (c : N) : Prop := 56320 <= c <= 57343.
(** a hexadecimal digit of either case *)
Definition hex_digit (c v : N) : Prop := (c = 48 + v /\ v < 10) \/ (c = 87 + v /\ 10 <= v < 16) \/ (c = 55 + v /\ 10 <= v < 16).
(** backslash, u and four hexadecimal digits *)
Definition unit_text (x : pystr) (u : N) : Prop :=
  exists a b c d a' b' c' d', x = [92; 117; a; b; c; d] /\ hex_digit a a' /\ hex_digit b b' /\ hex_digit c c' /\ hex_digit d d' /\ u = ((a' * 16 + b') * 16 + c') * 16 + d'.
Definition escapes : list (N * N) := [(34, 34); (92, 92); (47, 47); (98, 8); (102, 12); (110, 10); (114, 13); (116, 9)].
Inductive chars : pystr -> pystr -> Prop :=
| ch_none : chars [] []
| ch_plain c x v : 32 <= c -> c <> 34 -> c <> 92 -> chars x v -> chars (c :: x) (c :: v)
| ch_escape e c x v : In (e, c) escapes -> chars x v -> chars (92 :: e :: x) (c :: v)
(** a pair of surrogates, both escaped, is one character *)
| ch_pair x y u w z v : unit_text x u -> unit_text y w -> high u -> low w -> chars z v -> chars (x ++ y ++ z) ((u - 55296) * 1024 + (w - 56320) + 65536 :: v)
| ch_unit x u z v : unit_text x u -> ~ (high u /\ exists y w z', z = y ++ z' /\ unit_text y w /\ low w) -> chars z v -> chars (x ++ z) (u :: v).

(** ** Numbers *)
Definition natural_text (x : pystr) (n : Z) : Prop := x <> [] /\ Forall is_digit x /\ decimal x = n /\ (hd 0 x = 48 -> tl x = []).
Definition int_part (x : pystr) (i : Z) : Prop := natural_text x i \/ exists y n, x = 45 :: y /\ natural_text y n /\ i = (- n)%Z.
Definition fraction (x : pystr) : Prop := x = [] \/ exists ds, ds <> [] /\ Forall is_digit ds /\ x = 46 :: ds.
Definition exponent (x : pystr) : Prop := x = [] \/ exists e sg ds, (e = 101 \/ e = 69) /\ In sg [[]; [45]; [43]] /\ ds <> [] /\ Forall is_digit ds /\ x = e :: sg ++ ds.
Definition float_text (x : pystr) : Prop := exists a i fr ex, int_part a i /\ fraction fr /\ exponent ex /\ fr ++ ex <> [] /\ x = a ++ fr ++ ex.

(** ** Values *)
(** a key that comes again replaces the value *)
Inductive pairs_dict : list (pystr * mobj) -> dict mobj -> Prop :=
| pd_none : pairs_dict [] []
| pd_new l d k v : pairs_dict l d -> ~ In k (map fst d) -> pairs_dict (l ++ [(k, v)]) (d ++ [(k, v)])
| pd_again l d1 d2 k v v' : pairs_dict l (d1 ++ (k, v) :: d2) -> ~ In k (map fst d1) -> pairs_dict (l ++ [(k, v')]) (d1 ++ (k, v') :: d2).
Inductive json (fparse : pystr -> N) : pystr -> mobj -> Prop :=
| js_null : json fparse (s "null") MNil
| js_true : json fparse (s "true") (MBool true)
| js_false : json fparse (s "false") (MBool false)
| js_int x i : int_part x i -> json fparse x (MInt i)
| js_float x : float_text x -> json fparse x (MFloat (fparse x))
| js_nan : json fparse (s "NaN") (MFloat 0x7ff8000000000000)
| js_inf : json fparse (s "Infinity") (MFloat 0x7ff0000000000000)
| js_ninf : json fparse (s "-Infinity") (MFloat 0xfff0000000000000)
| js_str x v : chars x v -> json fparse (s """" ++ x ++ s """") (MStr v)
| js_arr0 w : blank w -> json fparse (s "[" ++ w ++ s "]") (MArr [])
| js_arr x l : elements fparse x l -> json fparse (s "[" ++ x ++ s "]") (MArr l)
| js_map0 w : blank w -> json fparse (s "{" ++ w ++ s "}") (MMap [])
| js_map x l d : members fparse x l -> pairs_dict l d -> json fparse (s "{" ++ x ++ s "}") (MMap d)
with elements (fparse : pystr -> N) : pystr -> list mobj -> Prop :=
| el_one w x w' v : blank w -> json fparse x v -> blank w' -> elements fparse (w ++ x ++ w') [v]
| el_more w x w' v y l : blank w -> json fparse x v -> blank w' -> elements fparse y l -> elements fparse (w ++ x ++ w' ++ s "," ++ y) (v :: l)
with members (fparse : pystr -> N) : pystr -> list (pystr * mobj) -> Prop :=
| mb_one w k kv w1 w2 x v w' : blank w -> chars k kv -> blank w1 -> blank w2 -> json fparse x v -> blank w' ->
    members fparse (w ++ s """" ++ k ++ s """" ++ w1 ++ s ":" ++ w2 ++ x ++ w') [(kv, v)]
| mb_more w k kv w1 w2 x v w' y l : blank w -> chars k kv -> blank w1 -> blank w2 -> json fparse x v -> blank w' -> members fparse y l ->
    members fparse (w ++ s """" ++ k ++ s """" ++ w1 ++ s ":" ++ w2 ++ x ++ w' ++ s "," ++ y) ((kv, v) :: l).

(** ** What survives the way through the text *)
(** strings of code points without a high surrogate directly before a low one *)
Inductive text_safe : pystr -> Prop :=
| ts_none : text_safe []
| ts_char c x : c < 0x110000 -> ~ (high c /\ exists d y, x = d :: y /\ low d) -> text_safe x -> text_safe (c :: x).
Definition finite (b : N) : Prop := b < 2 ^ 64 /\ b / 2 ^ 52 mod 2048 <> 2047.
Inductive json_safe : mobj -> Prop :=
| sf_nil : json_safe MNil
| sf_bool b : json_safe (MBool b)
| sf_int i : json_safe (MInt i)
| sf_float b : finite b \/ In b [0x7ff8000000000000; 0x7ff0000000000000; 0xfff0000000000000] -> json_safe (MFloat b)
| sf_str x : text_safe x -> json_safe (MStr x)
| sf_arr l : Forall json_safe l -> json_safe (MArr l)
| sf_map d : NoDup (map fst d) -> Forall text_safe (map fst d) -> Forall json_safe (map snd d) -> json_safe (MMap d).
(** bytes nowhere inside *)
Inductive no_bytes : mobj -> Prop :=
| nb_nil : no_bytes MNil
| nb_bool b : no_bytes (MBool b)
| nb_int i : no_bytes (MInt i)
| nb_float b : no_bytes (MFloat b)
| nb_str x : no_bytes (MStr x)
| nb_arr l : Forall no_bytes l -> no_bytes (MArr l)
| nb_map d : Forall no_bytes (map snd d) -> no_bytes (MMap d).
(** what repr of a float is: text of a float from which float() gets it back *)
Definition floats_ok (frepr : N -> pystr) (fparse : pystr -> N) : Prop := forall b, finite b -> float_text (frepr b) /\ fparse (frepr b) = b.
(** printable ASCII *)
Definition printable (x : pystr) : Prop := Forall (fun c => 32 <= c <= 126) x.

(** ** Documents for which that holds *)
Definition value_json (v : value) : Prop :=
  match v with
  | VStr x => text_safe x
  | VFloat b => json_safe (MFloat b)
  | VBytes _ => False
  | _ => True
  end.
(** every string of the document is safe, and there are no bytes in it *)
Record doc_json (h : heap) (d : doc) : Prop := {
  dj_props : json_safe (d_props d);
  dj_texts : forall k t, In (k, t) (d_texts d) -> text_safe k /\ text_safe t;
  dj_layers : forall k l, In (k, l) (d_layers d) -> text_safe k;
  dj_fields : forall k f t, declared h d k f t -> text_safe f /\ forall o v, In (o, v) (dt_opts t) -> text_safe o /\ value_json v;
  dj_values : forall k l n f t v, doc_node h d k l n -> dget (l_fields (h_layer h l)) f = Some t -> dget (n_fieldsof h n) f = Some v -> value_json v }.
