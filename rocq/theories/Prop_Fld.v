(** Properties C79 and C80: node.fld and small helpers; typed data and embedded documents. *)
From Verif Require Import PyBase PyBaseFacts Model_Text Model_Heap Model_Layer Model_Types Model_Msgpack Model_Document Model_Coerce Model_Codec Model_Fld
  Spec_Layer Spec_History Spec_Msgpack Spec_Document Spec_Codec Spec_Coerce Proof_Layer4 Proof_Codec6 Proof_Fld Prop_Layer Prop_Document Prop_Codec.
Local Open Scope Z_scope.

(** ** C79.  [attr]: the names every Python object has; all of them are of the form __x__. *)
(** node.fld.f is the field of that name, or None *)
Theorem C79_get : forall attr h n f v, (forall g, attr g = true -> dunder g) -> ~ dunder f -> wf_keys h ->
  (fld_get attr h n f = FValue v <-> In (f, v) (n_fieldsof h n) \/ ~ In f (dkeys (n_fieldsof h n)) /\ v = VNone).
Proof. exact fld_get_value. Qed.
Print Assumptions C79_get.
(** node.fld.f = v is node[f] = v: it is found again, and no other field of any node changes *)
Theorem C79_set : forall attr (K : Type) (leb : K -> K -> bool) h n f v, (forall g, attr g = true -> dunder g) -> ~ dunder f ->
  fld_set h n f v = (fst (exec leb h (OSetField n f v)), Ok n) /\ fld_get attr (fst (fld_set h n f v)) n f = FValue v /\
  forall g m, ~ dunder g -> g <> f \/ m <> n -> fld_get attr (fst (fld_set h n f v)) m g = fld_get attr h m g.
Proof. intros attr K leb. exact (@fld_set_item attr K leb). Qed.
Print Assumptions C79_set.
(** del node.fld.f is del node[f] *)
Theorem C79_del : forall attr (K : Type) (leb : K -> K -> bool) h n f, (forall g, attr g = true -> dunder g) -> ~ dunder f -> wf_keys h ->
  (In f (dkeys (n_fieldsof h n)) -> fld_del h n f = (fst (exec leb h (ODelField n f)), Ok tt) /\ fld_get attr (fst (fld_del h n f)) n f = FValue VNone) /\
  (~ In f (dkeys (n_fieldsof h n)) -> fld_del h n f = (h, Err KeyError)).
Proof. intros attr K leb. exact (@fld_del_item attr K leb). Qed.
Print Assumptions C79_del.
(** ... but not for the names that objects have: what is assigned is not what is read *)
Theorem C79_reserved_refuted : exists attr h n f v, (forall g, attr g = true -> dunder g) /\ wf h /\ wf_keys h /\ snd (fld_set h n f v) = Ok n /\
  dget (n_fieldsof (fst (fld_set h n f v)) n) f = Some v /\ fld_get attr (fst (fld_set h n f v)) n f <> FValue v.
Proof.
  exists (str_eqb (s "__doc__")), empty_heap, 0%nat, (s "__doc__"), (VInt 1). split; [|split; [exact wf_empty|split; [intros n; constructor|split; [vm_compute; reflexivity|split; [vm_compute; reflexivity|vm_compute; discriminate]]]]].
  intros g H. exists (s "doc"). symmetry. destruct (str_eqb_spec (s "__doc__") g) as [E|]; [exact E|discriminate].
Qed.
Print Assumptions C79_reserved_refuted.
(** get_prop(f, default)(node) is the field, also when it is None, and the default only for a node without it *)
Theorem C79_get_prop : forall f d h n v, wf_keys h -> (get_prop f d h n = v <-> In (f, v) (n_fieldsof h n) \/ ~ In f (dkeys (n_fieldsof h n)) /\ v = d).
Proof. exact get_prop_value. Qed.
Print Assumptions C79_get_prop.
(** chain applies its functions from left to right, and a chain of chains is the chain of all of them *)
Theorem C79_chain : forall (A : Type) (a b : list (A -> res A)) (g : list (A -> A)) x,
  chain (map (fun f y => Ok (f y)) g) x = Ok (fold_left (fun y f => f y) g x) /\ chain (a ++ b) x = rbind (chain a x) (chain b) /\ chain [chain a; chain b] x = chain (a ++ b) x.
Proof. intros A a b g x. exact (conj (chain_total g x) (conj (chain_app a b x) (chain_chains a b x))). Qed.
Print Assumptions C79_chain.
(** is_dangling: in no layer; the other nodes have a number *)
Theorem C79_dangling : forall h n, wf h -> (is_dangling h n = true <-> forall l, ~ In (Some n) (layer_iter h l)) /\
  (is_dangling h n = false -> exists l i, In (Some n) (layer_iter h l) /\ 0 <= i /\ node_i h n = Ok i).
Proof. intros h n W. split; [exact (dangling_iff h n W)|exact (bound_i h n W)]. Qed.
Print Assumptions C79_dangling.
(** a removed node is dangling, and keeps the number it had *)
Theorem C79_removed : forall h l n h', wf h -> layer_remove h l n = (h', Ok tt) -> is_dangling h' n = true /\ n_idof h' n = n_idof h n /\ exists i, 0 <= i /\ node_i h' n = Ok i.
Proof. exact removed_number. Qed.
Print Assumptions C79_removed.
(** ... so node.i does not tell whether a node is bound (its documentation says -1 if not, its assertion that it raises) *)
Theorem C79_number_refuted : exists h n i, wf h /\ is_dangling h n = true /\ node_i h n = Ok i.
Proof.
  exists (fst (layer_remove demo 0%nat 3%nat)), 3%nat, 3. assert (E : layer_remove demo 0%nat 3%nat = (fst (layer_remove demo 0%nat 3%nat), Ok tt)) by (apply injective_projections; [reflexivity|vm_compute; reflexivity]).
  split; [|vm_compute; split; reflexivity]. exact (proj1 (C12_remove_one_partial demo 0%nat 3%nat _ _ demo_wf ltac:(vm_compute; lia) E)).
Qed.
Print Assumptions C79_number_refuted.
Example C79_case : ~ dunder (s "pos") /\ wf_keys doc_heap /\ map (fld_get (fun _ => false) doc_heap 2%nat) [s "head"; s "none"; s "__data__"] = [FValue (VNode 0%nat); FValue VNone; FData 2%nat] /\
  map (fun n => get_prop (s "head") (VInt 7) doc_heap n) [2; 0]%nat = [VNode 0%nat; VInt 7] /\ snd (fld_del doc_heap 0%nat (s "head")) = Err KeyError.
Proof.
  split.
  - intros (x & E). destruct x as [|a [|b x]]; try discriminate E.
  - split; [|vm_compute; repeat split]. intros n. destruct n as [|[|[|[|n]]]]; vm_compute; repeat constructor; simpl; intuition discriminate.
Qed.

(** ** C80 *)
(** ExtData.encode gives the bytes it holds, or what bytes() makes of what it holds *)
Theorem C80_ext : forall h v, wf h -> proper v -> v <> VNone ->
  (exists b, ext_encode h v = Ok b /\ bytes b /\ (v = VBytes b \/ converts h TBinary v (VBytes b))) \/
  (exists e, ext_encode h v = Err e /\ (refuses h TBinary v e \/ uncovered TBinary v /\ e = Unmodelled)).
Proof. exact ext_outcome. Qed.
Print Assumptions C80_ext.
(** An embedded document: the bytes of encode decode to the same document, whose bytes are the same again; bytes that are not decoded are given back as they are *)
Theorem C80_round_trip : forall h d h1 b h0, doc_ok h d -> embed_encode h (EDoc d) = (h1, Ok b) -> wf h0 ->
  embed_encode h0 (EBytes b) = (h0, Ok b) /\
  exists h2 d' h3, embed_decode h0 (EBytes b) = (h2, EDoc d', Ok d') /\ same_doc h d h2 d' /\ wf h2 /\ untouched h0 h2 /\ embed_encode h2 (EDoc d') = (h3, Ok b).
Proof. exact embed_round. Qed.
Print Assumptions C80_round_trip.
(** decode decodes once: later calls give the same document and change nothing *)
Theorem C80_once : forall h x h1 x1 d, embed_decode h x = (h1, x1, Ok d) -> x1 = EDoc d /\ embed_decode h1 x1 = (h1, x1, Ok d).
Proof. exact embed_once. Qed.
Print Assumptions C80_once.
(** a decode that raises leaves the bytes in place and changes nothing *)
Theorem C80_failed : forall h x h1 x1 e, embed_decode h x = (h1, x1, Err e) -> h1 = h /\ x1 = x /\ exists b, x = EBytes b.
Proof. exact embed_failed. Qed.
Print Assumptions C80_failed.
Example C80_case : match embed_encode doc_heap (EDoc sample_doc) with
  | (h1, Ok b) => match embed_decode h1 (EBytes b) with
                  | (h2, EDoc d', Ok _) => snd (embed_encode h2 (EDoc d')) = Ok b /\ d_layers d' = [(s "token", 2%nat); (s "phrase", 3%nat)] /\ (b <> [])
                  | _ => False end
  | _ => False end /\ ext_encode doc_heap (VInt 3) = Ok [0; 0; 0]%N /\ ext_encode doc_heap (VStr (s "a")) = Err TypeError.
Proof. vm_compute. repeat split. discriminate. Qed.
