(** MessagePack documents: the statements of C25 and C26. *)
From Verif Require Import PyBase PyBaseFacts Model_Text Model_Heap Model_Layer Model_Types Model_Msgpack Model_Document Model_Codec
  Spec_Layer Spec_Types Spec_Msgpack Spec_Document Spec_Codec Proof_Heap Proof_Layer Proof_Layer2 Proof_Layer3 Proof_History Proof_Layer4 Proof_Types
  Proof_Text Proof_Msgpack Proof_Document Proof_Layout Proof_Codec Proof_Codec2 Proof_Codec3 Proof_Codec4 Proof_Codec5.
Local Open Scope Z_scope.

Lemma valid_encodes : forall h d ex tv, doc_valid h d -> doc_fits h d ->
  exists h1 e, codec_encode h d ex tv = (h1, Ok e) /\
    ((forall os b, In os ([ed_props e] :: [texts_obj (ed_texts e)] :: map layer_objs (ed_layers e)) -> pack_all os = Ok b -> zlen b < 18446744073709551616) ->
     exists bytes, msgpack_encode h d ex tv = (h1, Ok bytes)).
Proof.
  intros h d ex tv V F. destruct (encode_total h d V ex tv) as (h1 & ed & E). exists h1, ed. split; [assumption|]. intros Sh.
  destruct (layout_total h d ex tv h1 ed (dv_ok h d V) E F) as [bytes El].
  - split; [|split].
    + intros b. apply Sh. left. reflexivity.
    + intros b. apply Sh. right. left. reflexivity.
    + apply Forall_forall. intros el Hel b. apply Sh. right. right. apply in_map. assumption.
  - exists bytes. unfold msgpack_encode. rewrite E, El. reflexivity.
Qed.
Lemma decoded_doc : forall h d ex tv h1 bytes h0 h2 d', doc_ok h d -> msgpack_encode h d ex tv = (h1, Ok bytes) -> wf h0 ->
  msgpack_decode h0 bytes = (h2, Ok d') -> same_doc h d h2 d' /\ wf h2 /\ known h2 d'.
Proof.
  intros h d ex tv h1 b h0 h2 d' D E W Ed. destruct (msgpack_round h d ex tv h1 b [] h0 D E W) as (h2' & d'' & A & B & C & U & K & _). rewrite app_nil_r, Ed in A. injection A as <- <-. auto.
Qed.
Lemma encode_again_bytes h d ex tv h1 bytes h2 d' : doc_ok h d -> msgpack_encode h d ex tv = (h1, Ok bytes) -> same_doc h d h2 d' -> wf h2 -> known h2 d' ->
  forall ex' tv', exists h3, msgpack_encode h2 d' ex' tv' = (h3, Ok bytes).
Proof.
  intros D E S W K ex' tv'. destruct (msgpack_encode_inv _ _ _ _ _ _ E) as (ed & Ee & El). destruct (encode_again h d ex tv h1 ed h2 d' ex' tv' D Ee S W K) as (h3 & E3).
  exists h3. unfold msgpack_encode. rewrite E3, El. reflexivity.
Qed.
Lemma encode_stable : forall h d ex tv h1 bytes h0, doc_ok h d -> msgpack_encode h d ex tv = (h1, Ok bytes) -> wf h0 ->
  exists h2 d', msgpack_decode h0 bytes = (h2, Ok d') /\
    forall ex' tv', exists h3, msgpack_encode h2 d' ex' tv' = (h3, Ok bytes).
Proof.
  intros h d ex tv h1 b h0 D E W. destruct (msgpack_round h d ex tv h1 b [] h0 D E W) as (h2 & d' & A & B & C & U & K & _). rewrite app_nil_r in A. exists h2, d'. split; [assumption|].
  eapply encode_again_bytes; eassumption.
Qed.
Lemma wf_empty : wf empty_heap.
Proof. apply (ops_ok_wf Z.leb []). apply ops_okb_sound. reflexivity. Qed.
Lemma encode_options : forall h d ex tv ex' tv' h1 h1' b b', doc_ok h d -> msgpack_encode h d ex tv = (h1, Ok b) -> msgpack_encode h d ex' tv' = (h1', Ok b') -> b = b'.
Proof.
  intros h d ex tv ex' tv' h1 h1' b b' D E E'. destruct (msgpack_round h d ex tv h1 b [] empty_heap D E wf_empty) as (h2 & d' & A & S & W & U & K & _).
  destruct (encode_again_bytes h d ex tv h1 b h2 d' D E S W K ex tv) as [h3 E3]. destruct (encode_again_bytes h d ex' tv' h1' b' h2 d' D E' S W K ex tv) as [h4 E4]. congruence.
Qed.
Lemma decoded_valid : forall h d ex tv h1 bytes h0 h2 d', doc_ok h d -> msgpack_encode h d ex tv = (h1, Ok bytes) -> wf h0 ->
  msgpack_decode h0 bytes = (h2, Ok d') -> doc_valid h2 d'.
Proof.
  intros h d ex tv h1 b h0 h2 d' D E W Ed. destruct (decoded_doc h d ex tv h1 b h0 h2 d' D E W Ed) as (S & W2 & K2).
  destruct (msgpack_encode_inv _ _ _ _ _ _ E) as (ed & Ee & El).
  assert (TL : forall k f t x, declared h d k f t -> targets_layer t x -> In x (dkeys (d_layers d))) by (intros k f t x Hd; exact (proj1 (refs_ok h d ex tv h1 ed Ee k f t Hd) x)).
  assert (TT : forall k f t x, declared h d k f t -> targets_text t x -> In x (dkeys (d_texts d))) by (intros k f t x Hd; exact (proj2 (refs_ok h d ex tv h1 ed Ee k f t Hd) x)).
  exact (again_valid h d h2 d' D S W2 K2 TL TT).
Qed.
