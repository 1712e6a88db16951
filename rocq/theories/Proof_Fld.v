(** node.fld, small helpers, embedded documents. *)
From Verif Require Import PyBase PyBaseFacts Model_Text Model_Heap Model_Layer Model_Types Model_Msgpack Model_Document Model_Coerce Model_Codec Model_Fld
  Spec_Layer Spec_History Spec_Msgpack Spec_Document Spec_Codec Spec_Coerce Proof_Heap Proof_Layer Proof_Layer4 Proof_Codec2 Proof_Codec5 Proof_Codec6 Proof_Coerce4.
Local Open Scope Z_scope.

Definition dunder (f : pystr) : Prop := exists x, f = s "__" ++ x ++ s "__".
Lemma not_reserved (attr : pystr -> bool) f : (forall g, attr g = true -> dunder g) -> ~ dunder f -> str_eqb f (s "__data__") = false /\ attr f = false.
Proof.
  intros H Hf. split.
  - destruct (str_eqb_spec f (s "__data__")) as [E|]; [|reflexivity]. exfalso. apply Hf. exists (s "data"). exact E.
  - destruct (attr f) eqn:E; [|reflexivity]. exfalso. apply Hf, H, E.
Qed.
Lemma fld_get_value attr h n f v : (forall g, attr g = true -> dunder g) -> ~ dunder f -> wf_keys h ->
  (fld_get attr h n f = FValue v <-> In (f, v) (n_fieldsof h n) \/ ~ In f (dkeys (n_fieldsof h n)) /\ v = VNone).
Proof.
  intros A F W. destruct (not_reserved attr f A F) as [E1 E2]. unfold fld_get. rewrite E1, E2. specialize (W n). split.
  - intros H. injection H as <-. destruct (dget (n_fieldsof h n) f) as [v|] eqn:E; [left; apply dget_In; exact E|right; split; [|reflexivity]].
    intros I. apply dmem_In in I. unfold dmem in I. rewrite E in I. discriminate.
  - intros [H|[H ->]].
    + rewrite (dget_nodup _ _ _ W H). reflexivity.
    + destruct (dget (n_fieldsof h n) f) as [v|] eqn:E; [|reflexivity]. exfalso. apply H. apply dget_In in E. apply (in_map fst) in E. exact E.
Qed.
Lemma fld_set_item attr {K} (leb : K -> K -> bool) h n f v : (forall g, attr g = true -> dunder g) -> ~ dunder f ->
  fld_set h n f v = (fst (exec leb h (OSetField n f v)), Ok n) /\ fld_get attr (fst (fld_set h n f v)) n f = FValue v /\
  forall g m, ~ dunder g -> g <> f \/ m <> n -> fld_get attr (fst (fld_set h n f v)) m g = fld_get attr h m g.
Proof.
  intros A F. destruct (not_reserved attr f A F) as [E1 E2]. unfold fld_set. rewrite E1. split; [reflexivity|]. cbn [fst]. split.
  - unfold fld_get. rewrite E1, E2. rewrite fields_set_fields, Nat.eqb_refl, dget_dset_same. reflexivity.
  - intros g m G O. destruct (not_reserved attr g A G) as [G1 G2]. unfold fld_get. rewrite G1, G2. rewrite fields_set_fields. destruct (Nat.eqb_spec m n) as [->|Ne]; [|reflexivity].
    destruct O as [O|O]; [|congruence]. rewrite dget_dset_other by congruence. reflexivity.
Qed.
Lemma fld_del_item attr {K} (leb : K -> K -> bool) h n f : (forall g, attr g = true -> dunder g) -> ~ dunder f -> wf_keys h ->
  (In f (dkeys (n_fieldsof h n)) -> fld_del h n f = (fst (exec leb h (ODelField n f)), Ok tt) /\ fld_get attr (fst (fld_del h n f)) n f = FValue VNone) /\
  (~ In f (dkeys (n_fieldsof h n)) -> fld_del h n f = (h, Err KeyError)).
Proof.
  intros A F W. destruct (not_reserved attr f A F) as [E1 E2]. unfold fld_del. cbn [exec]. destruct (dmem (n_fieldsof h n) f) eqn:E.
  - split; [|intros N; exfalso; apply N, dmem_In, E]. intros _. split; [reflexivity|]. cbn [fst]. unfold fld_get. rewrite E1, E2. rewrite fields_set_fields, Nat.eqb_refl, dget_ddel_same by apply W. reflexivity.
  - split; [intros I; apply dmem_In in I; congruence|reflexivity].
Qed.
Lemma get_prop_value f d h n v : wf_keys h ->
  (get_prop f d h n = v <-> In (f, v) (n_fieldsof h n) \/ ~ In f (dkeys (n_fieldsof h n)) /\ v = d).
Proof.
  intros W. specialize (W n). unfold get_prop, dmem. split.
  - intros H. destruct (dget (n_fieldsof h n) f) as [x|] eqn:E; [subst x; left; apply dget_In; exact E|right; split; [|congruence]].
    intros I. apply dmem_In in I. unfold dmem in I. rewrite E in I. discriminate.
  - intros [H|[H ->]].
    + rewrite (dget_nodup _ _ _ W H). reflexivity.
    + destruct (dget (n_fieldsof h n) f) as [v|] eqn:E; [|reflexivity]. exfalso. apply H. apply dget_In in E. apply (in_map fst) in E. exact E.
Qed.
Lemma chain_app {A} (a b : list (A -> res A)) x : chain (a ++ b) x = rbind (chain a x) (chain b).
Proof. revert x. induction a as [|f a IH]; intros x; [reflexivity|]. cbn [app chain]. destruct (f x) as [y|]; [apply IH|reflexivity]. Qed.
Lemma chain_chains {A} (a b : list (A -> res A)) x : chain [chain a; chain b] x = chain (a ++ b) x.
Proof. rewrite chain_app. cbn [chain]. destruct (chain a x) as [y|]; [|reflexivity]. cbn [rbind]. destruct (chain b y); reflexivity. Qed.
Lemma chain_total {A} (g : list (A -> A)) x : chain (map (fun f y => Ok (f y)) g) x = Ok (fold_left (fun y f => f y) g x).
Proof. revert x. induction g as [|f g IH]; intros x; [reflexivity|]. exact (IH (f x)). Qed.

Lemma dangling_iff h n : wf h -> (is_dangling h n = true <-> forall l, ~ In (Some n) (layer_iter h l)).
Proof.
  intros W. unfold is_dangling. assert (M : forall l, n_collof h n = Some l <-> In (Some n) (layer_iter h l)).
  { intros l. rewrite (iter_content h l (wf_layers h W l)). rewrite (layer_ok_member h l n (wf_layers h W l)). split; [apply in_map|]. rewrite in_map_iff. intros (m & E & I). congruence. }
  destruct (n_collof h n) as [l|] eqn:E.
  - split; [discriminate|]. intros H. exfalso. apply (H l). apply M. reflexivity.
  - split; [|reflexivity]. intros _ l I. apply M in I. discriminate.
Qed.
Lemma bound_i h n : wf h -> is_dangling h n = false -> exists l i, In (Some n) (layer_iter h l) /\ 0 <= i /\ node_i h n = Ok i.
Proof.
  intros W H. unfold is_dangling in H. destruct (n_collof h n) as [l|] eqn:E; [|discriminate]. destruct (ok_coll h l (wf_layers h W l) n E) as (i & Hi & _).
  exists l, (Z.of_nat i). split; [|split; [lia|]].
  - rewrite (iter_content h l (wf_layers h W l)). apply in_map. apply (layer_ok_member h l n (wf_layers h W l)). exact E.
  - unfold node_i. rewrite Hi. destruct (Z.eqb_spec (Z.of_nat i) (-1)); [lia|reflexivity].
Qed.
Lemma removed_number h l n h' : wf h -> layer_remove h l n = (h', Ok tt) -> is_dangling h' n = true /\ n_idof h' n = n_idof h n /\ exists i, 0 <= i /\ node_i h' n = Ok i.
Proof.
  intros W H. pose proof (wf_layers h W l) as O. destruct (remove_spec h l n h' _ O H) as (_ & _ & R). destruct (mem_nid n (content h l)) eqn:M; [|destruct R as [R _]; discriminate]. destruct R as (_ & _ & R).
  apply mem_nid_In in M. apply layer_ok_member in M; [|assumption]. unfold layer_remove in H. rewrite (contains_mem h l n O) in H.
  assert (M' : mem_nid n (content h l) = true) by (apply mem_nid_In; apply layer_ok_member; assumption). rewrite M' in H.
  destruct (drop_node_spec h l n O M) as (h1 & Ed & _ & O1 & _ & En & _ & Ei & _). rewrite Ed in H. injection H as <-.
  destruct (auto_compact_spec h1 l O1) as (S2 & _). assert (E : n_idof (auto_compact h1 l) n = n_idof h n). { rewrite <- Ei. apply (sh_other _ _ _ S2). congruence. }
  split; [unfold is_dangling; rewrite R; reflexivity|]. split; [exact E|]. destruct (ok_coll h l O n M) as (i & Hi & _). exists (Z.of_nat i). split; [lia|].
  unfold node_i. rewrite E, Hi. destruct (Z.eqb_spec (Z.of_nat i) (-1)); [lia|reflexivity].
Qed.

(** ** typed data *)
Lemma ext_outcome h v : wf h -> proper v -> v <> VNone ->
  (exists b, ext_encode h v = Ok b /\ bytes b /\ (v = VBytes b \/ converts h TBinary v (VBytes b))) \/ (exists e, ext_encode h v = Err e /\ (refuses h TBinary v e \/ uncovered TBinary v /\ e = Unmodelled)).
Proof.
  intros W P Nv. assert (Ec : forall w, w <> VNone -> encode_cell h [] TBinary w = (let* x := py_bytes h w in Ok [MBin x])) by (intros w Hw; destruct w; try reflexivity; congruence).
  assert (X : ext_encode h v = py_bytes h v) by (destruct v; reflexivity).
  assert (O : (exists b, v = VBytes b) \/ ~ of_type TBinary v).
  { destruct v; try congruence; try (left; eexists; reflexivity); right; cbn; intuition congruence. }
  destruct O as [(b & ->)|O]; [left; exists b; split; [reflexivity|]; split; [exact P|left; reflexivity]|].
  rewrite X. destruct (bytes_outcome h [] v W P O) as [(v' & C & Pv & Ov & Nn & E)|[(e & R & E)|(U & E)]]; rewrite (Ec v Nv) in E.
  - destruct v'; cbn [of_type In] in Ov; try congruence; try (exfalso; destruct Ov as [Ov|[Ov|[]]]; discriminate); try contradiction. rewrite Ec in E by discriminate. destruct (py_bytes h v) as [b0|]; cbn [rbind py_bytes] in E; [|discriminate]. injection E as ->.
    left. eexists. split; [reflexivity|]. split; [exact Pv|right; exact C].
  - right. exists e. split; [destruct (py_bytes h v); [discriminate|cbn [rbind] in E; congruence]|left; exact R].
  - right. exists Unmodelled. split; [destruct (py_bytes h v); [discriminate|cbn [rbind] in E; congruence]|right; split; [exact U|reflexivity]].
Qed.
Lemma embed_once h x h1 x1 d : embed_decode h x = (h1, x1, Ok d) -> x1 = EDoc d /\ embed_decode h1 x1 = (h1, x1, Ok d).
Proof. destruct x as [b|d0]; cbn [embed_decode]; [destruct (msgpack_decode h b) as [h2 [d2|e]]|]; intros H; injection H as <- <- E; subst; try discriminate; split; reflexivity || congruence. Qed.
Lemma embed_round h d h1 b h0 : doc_ok h d -> embed_encode h (EDoc d) = (h1, Ok b) -> wf h0 ->
  embed_encode h0 (EBytes b) = (h0, Ok b) /\
  exists h2 d' h3, embed_decode h0 (EBytes b) = (h2, EDoc d', Ok d') /\ same_doc h d h2 d' /\ wf h2 /\ untouched h0 h2 /\ embed_encode h2 (EDoc d') = (h3, Ok b).
Proof.
  intros D E W. split; [reflexivity|]. cbn [embed_encode embed_decode] in *. destruct (msgpack_round h d _ _ h1 b [] h0 D E W) as (h2 & d' & A & B & C & U & _). rewrite app_nil_r in A.
  destruct (encode_stable h d _ _ h1 b h0 D E W) as (h2' & d2 & A' & St). rewrite A in A'. injection A' as <- <-. destruct (St false true) as (h3 & E3).
  exists h2, d', h3. rewrite A. auto 6.
Qed.
Lemma decode_failed h b h1 e : msgpack_decode h b = (h1, Err e) -> h1 = h.
Proof.
  unfold msgpack_decode, build. destruct (parse b) as [p|]; [|congruence]. match goal with |- context [match ?x with Ok _ => _ | Err _ => _ end] => destruct x end; congruence.
Qed.
Lemma embed_failed h x h1 x1 e : embed_decode h x = (h1, x1, Err e) -> h1 = h /\ x1 = x /\ exists b, x = EBytes b.
Proof.
  destruct x as [b|d0]; cbn [embed_decode]; [destruct (msgpack_decode h b) as [h2 [d2|e2]] eqn:E|]; intros H; try discriminate. injection H as <- <- _.
  split; [eapply decode_failed; exact E|]. eauto.
Qed.
