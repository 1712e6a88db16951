(** Properties C25 and C26: documents as MessagePack. *)
From Verif Require Import PyBase PyBaseFacts Model_Text Model_Heap Model_Layer Model_Types Model_Msgpack Model_Document Model_Codec
  Spec_Layer Spec_History Spec_Types Spec_Msgpack Spec_Document Spec_Codec Proof_Layer4 Proof_Types Proof_Msgpack Proof_Codec2 Proof_Codec3 Proof_Codec5 Proof_Codec6 Prop_Document.
Local Open Scope Z_scope.

(** C25: whatever was encoded decodes, in any program state h0 and with any bytes following, to the same document. *)
Theorem C25_round_trip : forall h d ex tv h1 bytes rest h0, doc_ok h d -> msgpack_encode h d ex tv = (h1, Ok bytes) -> wf h0 ->
  exists h2 d', msgpack_decode h0 (bytes ++ rest) = (h2, Ok d') /\ same_doc h d h2 d' /\ wf h2 /\ untouched h0 h2.
Proof.
  intros h d ex tv h1 b rest h0 D E W. destruct (msgpack_round h d ex tv h1 b rest h0 D E W) as (h2 & d' & A & B & C & U & _). exists h2, d'. auto.
Qed.
Print Assumptions C25_round_trip.
(** A valid document within the limits of the format is encoded, whatever the options of encode; the only
    further limit is that a part of the document has fewer than 2^64 bytes. *)
Theorem C25_encodes : forall h d ex tv, doc_valid h d -> doc_fits h d ->
  exists h1 e, codec_encode h d ex tv = (h1, Ok e) /\
    ((forall os b, In os ([ed_props e] :: [texts_obj (ed_texts e)] :: map layer_objs (ed_layers e)) -> pack_all os = Ok b -> zlen b < 18446744073709551616) ->
     exists bytes, msgpack_encode h d ex tv = (h1, Ok bytes)).
Proof. exact valid_encodes. Qed.
Print Assumptions C25_encodes.
(** The options of encode only decide what is refused, never what is written. *)
Theorem C25_options : forall h d ex tv ex' tv' h1 h1' b b', doc_ok h d -> msgpack_encode h d ex tv = (h1, Ok b) -> msgpack_encode h d ex' tv' = (h1', Ok b') -> b = b'.
Proof. exact encode_options. Qed.
Print Assumptions C25_options.

(** C26 *)
Theorem C26_stable : forall h d ex tv h1 bytes h0, doc_ok h d -> msgpack_encode h d ex tv = (h1, Ok bytes) -> wf h0 ->
  exists h2 d', msgpack_decode h0 bytes = (h2, Ok d') /\
    forall ex' tv', exists h3, msgpack_encode h2 d' ex' tv' = (h3, Ok bytes).
Proof. exact encode_stable. Qed.
Print Assumptions C26_stable.
(** the decoded document is itself valid *)
Theorem C26_valid : forall h d ex tv h1 bytes h0 h2 d', doc_ok h d -> msgpack_encode h d ex tv = (h1, Ok bytes) -> wf h0 ->
  msgpack_decode h0 bytes = (h2, Ok d') -> doc_valid h2 d'.
Proof. exact decoded_valid. Qed.
Print Assumptions C26_valid.

(** The sample document meets all hypotheses. *)
Lemma sample_nodes k l n : doc_node doc_heap sample_doc k l n -> (k = s "token" /\ l = 0%nat /\ (n = 0%nat \/ n = 2%nat)) \/ (k = s "phrase" /\ l = 1%nat /\ n = 3%nat).
Proof.
  intros [[[= <- <-]|[[= <- <-]|[]]] Hn]; vm_compute in Hn; [left|right].
  - destruct Hn as [[= <-]|[[= <-]|[]]]; auto.
  - destruct Hn as [[= <-]|[]]; auto.
Qed.
Ltac ex_in H := vm_compute in H; repeat (destruct H as [[= <- <-]|H]; [|]); [..|destruct H].
Lemma sample_type k f t : declared doc_heap sample_doc k f t ->
  In t [T_span (s "main"); T_string VNone; T_noderef (s "token"); T_nodespan (s "token"); T_noderef_many (s "token"); T_int32 (VInt 7)] /\
  In f [s "text"; s "pos"; s "head"; s "words"; s "args"; s "score"].
Proof. intros (l & [[= <- <-]|[[= <- <-]|[]]] & Hf); vm_compute in Hf; (repeat (destruct Hf as [[= <- <-]|Hf]; [split; vm_compute; tauto|])); destruct Hf. Qed.
Lemma sample_own n : n = 0%nat \/ n = 2%nat -> own_node doc_heap sample_doc (s "token") n.
Proof. intros [->| ->]; [exists 0%nat, 0%nat|exists 0%nat, 1%nat]; split; reflexivity. Qed.
Lemma sample_value k l n f v t : doc_node doc_heap sample_doc k l n -> dget (n_fieldsof doc_heap n) f = Some v -> dget (l_fields (h_layer doc_heap l)) f = Some t ->
  (v = VSpan (s "main") (s "one two") 0 3 /\ t = T_span (s "main")) \/ (v = VSpan (s "main") (s "one two") 4 7 /\ t = T_span (s "main")) \/
  (v = VStr (s "N") /\ t = T_string VNone) \/ (v = VNode 0%nat /\ t = T_noderef (s "token")) \/
  (v = VNodeSpan 0%nat 2%nat /\ t = T_nodespan (s "token")) \/ (v = VNodeList [Some 2%nat; Some 0%nat] /\ t = T_noderef_many (s "token")) \/
  (v = VInt 7 /\ t = T_int32 (VInt 7)).
Proof.
  intros Hn Hv Ht. apply dget_In in Hv. apply sample_nodes in Hn. destruct Hn as [(-> & -> & [->| ->])|(-> & -> & ->)]; vm_compute in Hv;
  (repeat (destruct Hv as [[= <- <-]|Hv]; [vm_compute in Ht; injection Ht as <-; vm_compute; tauto|])); destruct Hv.
Qed.
Lemma sample_valid : doc_valid doc_heap sample_doc.
Proof.
  split.
  - split.
    + exact doc_heap_wf.
    + exact sample_known.
    + repeat constructor; simpl; tauto.
    + repeat constructor; simpl; intuition discriminate.
    + constructor; repeat constructor; simpl; tauto.
    + intros k f t Hd. pose proof (sample_options k f t Hd) as Ho. apply sample_type in Hd. destruct Hd as [Ht _].
      simpl in Ht. repeat (destruct Ht as [<-|Ht]; [split; [discriminate|]; split; [discriminate|]; split; [exact Ho|]; split;
        [vm_compute; repeat constructor; simpl; tauto|vm_compute; intros o v Hov; repeat (destruct Hov as [[= <- <-]|Hov]; [constructor|]); destruct Hov]|]). destruct Ht.
    + intros k l n f v t Hn Hv Ht. destruct (sample_value k l n f v t Hn Hv Ht) as [[-> ->]|[[-> ->]|[[-> ->]|[[-> ->]|[[-> ->]|[[-> ->]|[-> ->]]]]]]].
      * apply vo_span; [split; reflexivity|reflexivity|lia|vm_compute; discriminate].
      * apply vo_span; [split; reflexivity|reflexivity|lia|vm_compute; discriminate].
      * apply vo_str; reflexivity.
      * apply (vo_node _ _ _ (s "token")); [reflexivity|split; vm_compute; auto|apply sample_own; auto].
      * apply (vo_nodespan _ _ _ (s "token")); [reflexivity|split; vm_compute; auto|]. exists 0%nat, 0%nat, 1%nat. split; [reflexivity|]. split; [reflexivity|]. split; [reflexivity|lia].
      * apply (vo_many _ _ _ (s "token") [2%nat; 0%nat]); [reflexivity|split; vm_compute; auto|]. repeat constructor; apply sample_own; auto.
      * apply vo_int. simpl. auto.
  - intros k l [[= <- <-]|[[= <- <-]|[]]]; reflexivity.
  - intros k l Hin f t Hf. apply dget_In in Hf. destruct Hin as [[= <- <-]|[[= <- <-]|[]]]; vm_compute in Hf;
    (repeat (destruct Hf as [[= <- <-]|Hf]; [first [exists (s "token"); vm_compute; solve [auto] | exists (s "main"); vm_compute; solve [auto]]|])); destruct Hf.
  - intros k f t x Hd Hx. apply sample_type in Hd. destruct Hd as [Ht _]. destruct Hx as [H1 H2]. simpl in Ht.
    repeat (destruct Ht as [<-|Ht]; [vm_compute in H2; first [discriminate H2 | injection H2 as <-; simpl; solve [auto]]|]). destruct Ht.
  - intros k f t x Hd Hx. apply sample_type in Hd. destruct Hd as [Ht _]. destruct Hx as [H1 H2]. simpl in Ht.
    repeat (destruct Ht as [<-|Ht]; [vm_compute in H2; first [discriminate H2 | injection H2 as <-; simpl; solve [auto]]|]). destruct Ht.
  - intros k l n f v Hn Hf. apply sample_nodes in Hn. destruct Hn as [(-> & -> & [->| ->])|(-> & -> & ->)]; vm_compute in Hf;
    (repeat (destruct Hf as [[= <- <-]|Hf]; [vm_compute; tauto|])); destruct Hf.
  - intros k l n Hn f t v Ht Hv. destruct (sample_value k l n f v t Hn Hv Ht) as [[-> ->]|[[-> ->]|[[-> ->]|[[-> ->]|[[-> ->]|[[-> ->]|[-> ->]]]]]]].
    + exists (s "main"). split; [split; reflexivity|constructor].
    + exists (s "main"). split; [split; reflexivity|constructor].
    + exists (s "main"). split; [reflexivity|constructor; reflexivity].
    + exists (s "token"). split; [split; reflexivity|constructor; exists 0%nat; split; reflexivity].
    + exists (s "token"). split; [split; reflexivity|]. apply (ad_nodespan _ _ _ _ 0 2); [exists 0%nat; split; reflexivity|exists 0%nat; split; reflexivity|reflexivity|reflexivity|lia].
    + exists (s "token"). split; [split; reflexivity|]. apply (ad_nodelist _ _ [2%nat; 0%nat]). intros n' [<-|[<-|[]]]; exists 0%nat; split; reflexivity.
    + exists (s "main"). split; [reflexivity|]. apply (ad_i32 _ _ _ 7); [constructor|lia].
Qed.
Ltac small_str := split; [apply Forall_forall; intros c Hc; vm_compute in Hc; repeat (destruct Hc as [<-|Hc]; [left; reflexivity|]); destruct Hc|vm_compute; reflexivity].
Lemma sample_fits : doc_fits doc_heap sample_doc.
Proof.
  split.
  - apply pack_fits. eexists. vm_compute. reflexivity.
  - reflexivity.
  - intros k t [[= <- <-]|[]]. split; small_str.
  - reflexivity.
  - intros k l [[= <- <-]|[[= <- <-]|[]]]; (split; [small_str|split; vm_compute; reflexivity]).
  - intros k f t Hd. apply sample_type in Hd. destruct Hd as [Ht Hf]. split; [simpl in Hf; repeat (destruct Hf as [<-|Hf]; [small_str|]); destruct Hf|].
    simpl in Ht. repeat (destruct Ht as [<-|Ht]; [split; [reflexivity|]; intros o v Hov; vm_compute in Hov; repeat (destruct Hov as [[= <- <-]|Hov]; [split; [small_str|first [exact I|small_str|simpl; lia]]|]); destruct Hov|]). destruct Ht.
  - intros k l n f t v Hn Ht Hv. destruct (sample_value k l n f v t Hn Hv Ht) as [[-> ->]|[[-> ->]|[[-> ->]|[[-> ->]|[[-> ->]|[[-> ->]|[-> ->]]]]]]]; simpl; first [exact I|small_str|vm_compute; reflexivity|lia].
Qed.
Example C25_case : doc_valid doc_heap sample_doc /\ doc_fits doc_heap sample_doc /\
  exists h1 bytes, msgpack_encode doc_heap sample_doc false true = (h1, Ok bytes) /\ length bytes = 220%nat.
Proof. split; [exact sample_valid|]. split; [exact sample_fits|]. exact sample_encodes. Qed.
(** the decoded sample, in an empty program state: the node that was third is now second *)
Example C25_decoded : match msgpack_encode doc_heap sample_doc false true with
  | (_, Ok bytes) => match msgpack_decode empty_heap bytes with
      | (h2, Ok d') => d_layers d' = [(s "token", 0%nat); (s "phrase", 1%nat)] /\ d_texts d' = d_texts sample_doc /\ d_props d' = d_props sample_doc /\
          n_fieldsof h2 1%nat = [(s "text", VSpan (s "main") (s "one two") 4 7); (s "head", VNode 0%nat)] /\
          n_fieldsof h2 2%nat = [(s "words", VNodeSpan 0%nat 1%nat); (s "args", VNodeList [Some 1%nat; Some 0%nat]); (s "score", VInt 7)]
      | _ => False
      end
  | _ => False
  end.
Proof. vm_compute. repeat split. Qed.
(** What the relation of C25 leaves open is real: None and an empty list come back as absent fields, True in
    an integer field as 1, a node span in a list field as a list. *)
Definition odd_heap : heap := exec_all Z.leb empty_heap
  [OLayer (s "t") [(s "a", T_string VNone); (s "b", T_noderef_many (s "t")); (s "c", T_int32 VNone); (s "d", T_noderef_many (s "t"))];
   OAdd 0%nat [(s "b", VNodeList []); (s "c", VBool true)]; OSetField 0%nat (s "a") VNone; OSetField 0%nat (s "d") (VNodeSpan 0%nat 0%nat)].
Example C25_odd : match msgpack_encode odd_heap (mkDoc (MMap []) [] [(s "t", 0%nat)]) false false with
  | (_, Ok bytes) => match msgpack_decode empty_heap bytes with
      | (h2, Ok d') => n_fieldsof odd_heap 0%nat = [(s "b", VNodeList []); (s "c", VBool true); (s "a", VNone); (s "d", VNodeSpan 0%nat 0%nat)] /\
          n_fieldsof h2 0%nat = [(s "c", VInt 1); (s "d", VNodeList [Some 0%nat])]
      | _ => False
      end
  | _ => False
  end.
Proof. vm_compute. repeat split. Qed.
