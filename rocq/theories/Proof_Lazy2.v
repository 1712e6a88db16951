(** Consequences of lazy decoding; references of an encoded document. *)
From Verif Require Import PyBase PyBaseFacts Model_Text Model_Heap Model_Layer Model_Types Model_Msgpack Model_Document Model_Codec Model_Lazy
  Spec_Layer Spec_Types Spec_Msgpack Spec_Document Spec_Codec Spec_Lazy Proof_Heap Proof_Layer Proof_Layer2 Proof_Layer3 Proof_History Proof_Layer4 Proof_Types Proof_Document Proof_Msgpack Proof_Layout Proof_Codec Proof_Codec2 Proof_Lazy.
Local Open Scope Z_scope.
Local Arguments s : simpl never.

Lemma full_app raw p a : forall b h0, (forall ls, ~ In (CDocument ls) a) -> full_answers raw p h0 (a ++ b) = full_answers raw p h0 a ++ full_answers raw p h0 b.
Proof.
  induction a as [|c a IH]; intros b h0 H; [reflexivity|]. cbn [app full_answers]. f_equal.
  assert (E : after h0 (full_answer raw p h0 c) = h0) by (destruct c as [ks| |[|n ns]|ls|]; try reflexivity; exfalso; apply (H ls); left; reflexivity).
  rewrite E. apply IH. intros ls Hl. apply (H ls). right. assumption.
Qed.
Lemma open_same raw ref m : md_open raw ref = Ok m -> md_raw m = raw.
Proof. unfold md_open. destruct (list_eqb N.eqb (firstn 4 raw) magic); [|discriminate]. intros H. apply Ok_inj in H. subst m. reflexivity. Qed.
Lemma lazy_document : forall h d ex tv h1 bytes props, doc_ok h d -> d_props d = MMap props -> msgpack_encode h d ex tv = (h1, Ok bytes) ->
  forall m ref, md_open bytes ref = Ok m -> forall cs h0, (forall ls, ~ In (CDocument ls) cs) ->
  calls h0 m (cs ++ [CDocument []]) = calls h0 m cs ++ [ADocument (msgpack_decode h0 bytes)].
Proof.
  intros h d ex tv h1 bytes props D Pm H m ref Ho cs h0 Hc. destruct (lazy_equals_full h d ex tv h1 bytes [] props D Pm H) as (p & _ & _ & _ & _ & G). rewrite app_nil_r in G.
  destruct (G ref) as (m' & Em & _ & Gc). assert (m' = m) by congruence. subst m'. rewrite !Gc, full_app by assumption. reflexivity.
Qed.
Lemma lazy_properties : forall h d ex tv h1 bytes rest props, doc_ok h d -> d_props d = MMap props -> msgpack_encode h d ex tv = (h1, Ok bytes) ->
  forall m ref keys, md_open (bytes ++ rest) ref = Ok m ->
  exists ps, snd (md_properties m keys) = Ok (MMap ps) /\ NoDup (dkeys ps) /\
    (forall k v, In (k, v) ps <-> In (k, v) props /\ (keys = [] \/ In k keys)) /\ (keys = [] -> ps = props).
Proof.
  intros h d ex tv h1 bytes rest props D Pm H m ref keys Ho. destruct (lazy_equals_full h d ex tv h1 bytes rest props D Pm H) as (p & _ & Ep & _ & _ & G).
  destruct (G ref) as (m' & Em & _ & Gc). assert (m' = m) by congruence. subst m'. specialize (Gc [CProps keys] empty_heap). cbn [calls call full_answers full_answer] in Gc.
  destruct (md_properties m keys) as [m1 r]. cbn [snd]. injection Gc as ->. rewrite Ep, Pm. pose proof (do_props h d D) as Pv. rewrite Pm in Pv. inversion Pv as [| | | | | | |? ND FP]; subst.
  destruct keys as [|k0 ks].
  - exists props. split; [reflexivity|]. split; [assumption|]. split; [|auto]. intros k v. tauto.
  - exists (filter (fun kv => among (k0 :: ks) (fst kv)) props). split; [reflexivity|]. split; [|split; [|discriminate]].
    + clear - ND. unfold dkeys. induction props as [|[k v] props IH]; [constructor|]. cbn [map fst] in ND. inversion ND as [|? ? N1 N2]; subst. cbn [filter fst]. destruct (among (k0 :: ks) k); [|auto].
      cbn [map fst]. constructor; [|auto]. intros Hk. apply N1. apply in_map_iff in Hk. destruct Hk as (x & <- & Hx). apply filter_In in Hx. apply in_map. tauto.
    + intros k v. rewrite filter_In. cbn [fst]. rewrite among_In. split; [intros [A B]; auto|intros [A [B|B]]; [discriminate|auto]].
Qed.
Lemma lazy_texts_names : forall h d ex tv h1 bytes rest props, doc_ok h d -> d_props d = MMap props -> msgpack_encode h d ex tv = (h1, Ok bytes) ->
  forall m ref n names, md_open (bytes ++ rest) ref = Ok m -> snd (md_gettexts m (n :: names)) = Ok (MMap []).
Proof.
  intros h d ex tv h1 bytes rest props D Pm H m ref n names Ho. destruct (lazy_equals_full h d ex tv h1 bytes rest props D Pm H) as (p & _ & Ep & _ & _ & G).
  destruct (G ref) as (m' & Em & _ & Gc). assert (m' = m) by congruence. subst m'. specialize (Gc [CTexts (n :: names)] empty_heap). cbn [calls call full_answers full_answer] in Gc.
  destruct (md_gettexts m (n :: names)) as [m1 r]. cbn [snd]. injection Gc as ->. reflexivity.
Qed.

Lemma named_own h d x n : wf h -> in_named h x n -> (forall l', l_nameof h l' = x -> dget (d_layers d) x = Some l') -> own_node h d x n.
Proof.
  intros W (l & Hc & Hn) U. exists l. assert (Hin : In n (content h l)) by (apply (layer_ok_member h l n (wf_layers h W l)); assumption).
  apply In_nth_error in Hin. destruct Hin as [p Hp]. exists p. split; [auto|]. unfold at_pos. rewrite (iter_wf _ _ W), nth_error_map, Hp. reflexivity.
Qed.
Lemma refs_own : forall h d h1 b, wf h -> known h d -> msgpack_encode h d false true = (h1, Ok b) -> spans_joined h d ->
  forall k l n f t v x, doc_node h d k l n -> schema_ok h l -> dget (l_fields (h_layer h l)) f = Some t -> dget (n_fieldsof h n) f = Some v ->
  (forall g u m, dget (l_fields (h_layer h l)) g = Some u -> dget (n_fieldsof h n) g = Some (VNode m) -> dt_class u <> KNodespan) ->
  In (dt_class t) [KNoderef; KNoderefList; KNodespan] -> targets_layer t x -> (forall l', l_nameof h l' = x -> dget (d_layers d) x = Some l') ->
  match v with
  | VNode m => own_node h d x m
  | VNodeList ms => forall m, In (Some m) ms -> own_node h d x m
  | VNodeSpan a b => dt_class t = KNodespan -> own_node h d x a /\ own_node h d x b
  | _ => True
  end.
Proof.
  intros h d h1 b W K E J k l n f t v x Hn Hs Ht Hv Hx Hc Tl U. destruct (msgpack_encode_heap _ _ _ _ _ _ E) as (o & Ec & Ho). destruct (Ho b eq_refl) as [y ->].
  destruct (compile_checked h d h1 y W K Ec) as (_ & _ & G). destruct (G J k l n Hn Hs f t v Ht Hv Hx) as [_ (name & To & A)].
  assert (Hname : name = x).
  { destruct Tl as [_ Tl]. unfold type_ok in To. simpl in Hc. destruct Hc as [Hc|[Hc|[Hc|[]]]]; rewrite <- Hc in To; destruct To as [_ To]; congruence. }
  subst name. inversion A; subst; try exact I; try (apply named_own; assumption); try (exfalso; simpl in Hc; intuition congruence).
  - intros _. split; apply named_own; assumption.
  - intros m Hm. apply in_map_iff in Hm. destruct Hm as (m' & [= <-] & Hm). apply named_own; auto.
  - intros Hk. congruence.
Qed.
Lemma lazy_pickle : forall h d ex tv h1 bytes rest props, doc_ok h d -> d_props d = MMap props -> msgpack_encode h d ex tv = (h1, Ok bytes) ->
  forall m ref, md_open (bytes ++ rest) ref = Ok m -> exists m', md_pickle m = Ok m' /\ md_ref m' = None /\ forall cs h0, calls h0 m' cs = calls h0 m cs.
Proof.
  intros h d ex tv h1 bytes rest props D Pm H m ref Ho. destruct (lazy_equals_full h d ex tv h1 bytes rest props D Pm H) as (p & _ & _ & _ & _ & G).
  destruct (G ref) as (m1 & E1 & _ & G1). assert (m1 = m) by congruence. subst m1. destruct (G None) as (m2 & E2 & R2 & G2).
  exists m2. unfold md_pickle. rewrite (open_same _ _ _ Ho). split; [exact E2|]. split; [exact R2|]. intros cs h0. rewrite G1. apply G2.
Qed.
Lemma foreign bs : firstn 4 bs <> magic -> (forall h, msgpack_decode h bs = (h, Err ValueError)) /\ (forall ref, md_open bs ref = Err ValueError).
Proof.
  intros N. unfold msgpack_decode, parse, md_open. change (list_eqb N.eqb (firstn 4 bs) magic) with (str_eqb (firstn 4 bs) magic).
  destruct (str_eqb_spec (firstn 4 bs) magic); [contradiction|]. auto.
Qed.
