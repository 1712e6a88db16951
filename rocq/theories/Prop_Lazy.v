(** Properties C28 to C31: JSON objects, lazy decoding, projection, references. *)
From Verif Require Import PyBase PyBaseFacts Model_Text Model_Heap Model_Layer Model_Types Model_Msgpack Model_Document Model_Codec Model_Lazy Model_Json
  Spec_Layer Spec_History Spec_Types Spec_Msgpack Spec_Document Spec_Codec Spec_Lazy Proof_Layer4 Proof_Types Proof_Document Proof_Codec2 Proof_Codec6 Proof_Lazy Proof_Json Proof_Lazy2 Prop_Document Prop_Codec.
Local Open Scope Z_scope.

(** C28 *)
Theorem C28_round_trip : forall h d h1 o h0, doc_ok h d -> json_encode h d = (h1, Ok o) -> wf h0 ->
  exists h2 d', json_decode h0 o = (h2, Ok d') /\ same_doc h d h2 d' /\ wf h2 /\ untouched h0 h2.
Proof. exact json_round. Qed.
Print Assumptions C28_round_trip.
Theorem C28_encodes : forall h d, doc_valid h d -> exists h1 o, json_encode h d = (h1, Ok o).
Proof. exact json_total. Qed.
Print Assumptions C28_encodes.
(** Both formats decode to the very same document. *)
Theorem C28_msgpack : forall h d h1 h2 o bytes ex tv rest h0, doc_ok h d -> json_encode h d = (h1, Ok o) -> msgpack_encode h d ex tv = (h2, Ok bytes) ->
  json_decode h0 o = msgpack_decode h0 (bytes ++ rest).
Proof. exact json_msgpack. Qed.
Print Assumptions C28_msgpack.
Theorem C28_stable : forall h d h1 o h0, doc_ok h d -> json_encode h d = (h1, Ok o) -> wf h0 ->
  exists h2 d' h3, json_decode h0 o = (h2, Ok d') /\ json_encode h2 d' = (h3, Ok o).
Proof. exact json_stable. Qed.
Print Assumptions C28_stable.
Example C28_case : doc_valid doc_heap sample_doc /\ match json_encode doc_heap sample_doc with
  | (_, Ok (MMap [(k, MMap [(_, p); (_, MMap t); _; (_, MMap ls); _])])) => k = s "DM10" /\ p = d_props sample_doc /\
       t = [(s "main", MArr [MStr (s "one"); MStr (s " "); MStr (s "two")])] /\
       dget ls (s "token") = Some (MMap [(s "text", MArr [MInt 0; MInt 1; MInt 2; MInt 3]); (s "pos", MArr [MStr (s "N"); MNil]); (s "head", MArr [MNil; MInt 0])])
  | _ => False
  end.
Proof. split; [exact sample_valid|]. vm_compute. repeat split. Qed.

(** C29: every sequence of calls on a MsgpackDocument of an encoded document (and of anything that follows
    it) answers as the fully decoded document does; [full_answer] is in Spec_Lazy. *)
Theorem C29_lazy : forall h d ex tv h1 bytes rest props, doc_ok h d -> d_props d = MMap props -> msgpack_encode h d ex tv = (h1, Ok bytes) ->
  exists p, parse (bytes ++ rest) = Ok p /\ pd_props p = d_props d /\
    map (fun kt => (fst kt, List.concat (snd kt))) (pd_texts p) = d_texts d /\
    pd_schema p = map (fun kl => (fst kl, map (fun ft => (fst ft, base_type (snd ft))) (l_fields (h_layer h (snd kl))))) (d_layers d) /\
    forall ref, exists m, md_open (bytes ++ rest) ref = Ok m /\ md_ref m = ref /\ forall cs h0, calls h0 m cs = full_answers (bytes ++ rest) p h0 cs.
Proof. exact lazy_equals_full. Qed.
Print Assumptions C29_lazy.
(** document() of the first call is the decoded document, whatever was called before *)
Theorem C29_document : forall h d ex tv h1 bytes props, doc_ok h d -> d_props d = MMap props -> msgpack_encode h d ex tv = (h1, Ok bytes) ->
  forall m ref, md_open bytes ref = Ok m -> forall cs h0, (forall ls, ~ In (CDocument ls) cs) ->
  calls h0 m (cs ++ [CDocument []]) = calls h0 m cs ++ [ADocument (msgpack_decode h0 bytes)].
Proof. exact lazy_document. Qed.
Print Assumptions C29_document.
Example C29_case : match msgpack_encode doc_heap sample_doc false true with
  | (_, Ok bytes) => match md_open bytes None with
     | Ok m => calls empty_heap m [CTexts []; CProps []; CProps [s "x"]; CDocument [s "phrase"]; CDocument []] =
         [ATexts (Ok (MMap [(s "main", MArr [MStr (s "one"); MStr (s " "); MStr (s "two")])])); AProps (Ok (MMap [(s "id", MInt 1)])); AProps (Ok (MMap []));
          ADocument (empty_heap, Err KeyError); ADocument (msgpack_decode empty_heap bytes)]
     | _ => False end
  | _ => False end.
Proof. vm_compute. repeat split. Qed.

(** A pickled and restored document answers every call as before; its reference is lost. *)
Theorem C29_pickle : forall h d ex tv h1 bytes rest props, doc_ok h d -> d_props d = MMap props -> msgpack_encode h d ex tv = (h1, Ok bytes) ->
  forall m ref, md_open (bytes ++ rest) ref = Ok m -> exists m', md_pickle m = Ok m' /\ md_ref m' = None /\ forall cs h0, calls h0 m' cs = calls h0 m cs.
Proof. exact lazy_pickle. Qed.
Print Assumptions C29_pickle.
Example C29_pickle_case : match msgpack_encode doc_heap sample_doc false true with
  | (_, Ok bytes) => match md_open bytes (Some (11, 7)) with
     | Ok m => md_ref m = Some (11, 7) /\ match md_pickle m with Ok m' => md_ref m' = None /\ calls empty_heap m' [CProps []] = [AProps (Ok (MMap [(s "id", MInt 1)]))] | _ => False end
     | _ => False end
  | _ => False end.
Proof. vm_compute. repeat split. Qed.
(** Data that does not start with the magic bytes is refused by both readers. *)
Theorem C29_foreign : forall bs, firstn 4 bs <> magic -> (forall h, msgpack_decode h bs = (h, Err ValueError)) /\ (forall ref, md_open bs ref = Err ValueError).
Proof. exact foreign. Qed.
Print Assumptions C29_foreign.
Example C29_foreign_case : firstn 4 (s "DM11" ++ [0%N]) <> magic /\ firstn 4 (firstn 3 magic) <> magic.
Proof. split; vm_compute; discriminate. Qed.

(** C30: the properties asked for, and only those, each once *)
Theorem C30_properties : forall h d ex tv h1 bytes rest props, doc_ok h d -> d_props d = MMap props -> msgpack_encode h d ex tv = (h1, Ok bytes) ->
  forall m ref keys, md_open (bytes ++ rest) ref = Ok m ->
  exists ps, snd (md_properties m keys) = Ok (MMap ps) /\ NoDup (dkeys ps) /\
    (forall k v, In (k, v) ps <-> In (k, v) props /\ (keys = [] \/ In k keys)) /\ (keys = [] -> ps = props).
Proof. exact lazy_properties. Qed.
Print Assumptions C30_properties.
Example C30_case : match msgpack_encode doc_heap (mkDoc (MMap [(s "id", MInt 1); (s "t", MStr (s "x")); (s "u", MArr [MNil])]) [] []) false true with
  | (_, Ok bytes) => match md_open bytes None with
     | Ok m => snd (md_properties m [s "u"; s "v"; s "id"]) = Ok (MMap [(s "id", MInt 1); (s "u", MArr [MNil])])
     | _ => False end
  | _ => False end.
Proof. vm_compute. reflexivity. Qed.
(** with names, texts answers nothing at all, whatever the document *)
Theorem C30_texts_refuted : forall h d ex tv h1 bytes rest props, doc_ok h d -> d_props d = MMap props -> msgpack_encode h d ex tv = (h1, Ok bytes) ->
  forall m ref n names, md_open (bytes ++ rest) ref = Ok m -> snd (md_gettexts m (n :: names)) = Ok (MMap []).
Proof. exact lazy_texts_names. Qed.
Print Assumptions C30_texts_refuted.

(** C31: partial.  Holds when no layer elsewhere has the name of a layer of the document and the field types have their
    own classes (as made by the type constructors), by the check that compile makes. *)
Theorem C31_own_partial : forall h d h1 b, wf h -> known h d -> msgpack_encode h d false true = (h1, Ok b) -> spans_joined h d ->
  forall k l n f t v x, doc_node h d k l n -> schema_ok h l -> dget (l_fields (h_layer h l)) f = Some t -> dget (n_fieldsof h n) f = Some v ->
  (forall g u m, dget (l_fields (h_layer h l)) g = Some u -> dget (n_fieldsof h n) g = Some (VNode m) -> dt_class u <> KNodespan) ->
  In (dt_class t) [KNoderef; KNoderefList; KNodespan] -> targets_layer t x -> (forall l', l_nameof h l' = x -> dget (d_layers d) x = Some l') ->
  match v with
  | VNode m => own_node h d x m
  | VNodeList ms => forall m, In (Some m) ms -> own_node h d x m
  | VNodeSpan a b => dt_class t = KNodespan -> own_node h d x a /\ own_node h d x b
  | _ => True
  end.
Proof. exact refs_own. Qed.
Print Assumptions C31_own_partial.
Example C31_case : wf doc_heap /\ known doc_heap sample_doc /\ spans_joined doc_heap sample_doc /\ own_node doc_heap sample_doc (s "token") 0%nat.
Proof.
  split; [exact doc_heap_wf|]. split; [exact sample_known|]. split; [|apply sample_own; auto].
  intros k l n f a b Hn Hv. destruct (sample_nodes _ _ _ Hn) as [(-> & -> & [->| ->])|(-> & -> & ->)]; apply dget_In in Hv; vm_compute in Hv;
  repeat (destruct Hv as [Hv|Hv]; [first [discriminate Hv|injection Hv as <- <- <-; reflexivity]|]); destruct Hv.
Qed.
(** a node of another document's layer "t" is written as a reference to the document's own node at that position *)
Definition other_heap : heap := exec_all Z.leb empty_heap
  [OLayer (s "t") [(s "r", T_noderef (s "t"))]; OAdd 0%nat [];
   OLayer (s "t") [(s "r", T_noderef (s "t"))]; OAdd 1%nat []; OSetField 0%nat (s "r") (VNode 1%nat)].
Definition other_doc : doc := mkDoc (MMap []) [] [(s "t", 0%nat)].
Theorem C31_other_refuted : exists h d h1 b n m, wf h /\ known h d /\ doc_node h d (s "t") 0%nat n /\ dget (n_fieldsof h n) (s "r") = Some (VNode m) /\
  ~ own_node h d (s "t") m /\ msgpack_encode h d false true = (h1, Ok b) /\
  exists h2 d', msgpack_decode empty_heap b = (h2, Ok d') /\ dget (n_fieldsof h2 0%nat) (s "r") = Some (VNode 0%nat).
Proof.
  exists other_heap, other_doc, (fst (msgpack_encode other_heap other_doc false true)),
    (match snd (msgpack_encode other_heap other_doc false true) with Ok b => b | Err _ => [] end), 0%nat, 1%nat.
  split; [apply ops_ok_wf, ops_okb_sound; vm_compute; reflexivity|]. split; [intros k l [[= <- <-]|[]]; vm_compute; auto|].
  split; [split; vm_compute; auto|]. split; [reflexivity|]. split.
  { intros (l & p & Hl & Hp). vm_compute in Hl. injection Hl as <-. apply nth_error_In in Hp. vm_compute in Hp. destruct Hp as [[=]|[]]. }
  split.
  { assert (E : snd (msgpack_encode other_heap other_doc false true) = Ok (match snd (msgpack_encode other_heap other_doc false true) with Ok b => b | Err _ => [] end)) by (vm_compute; reflexivity).
    destruct (msgpack_encode other_heap other_doc false true) as [h1 r]. simpl in *. rewrite <- E. reflexivity. }
  do 2 eexists. split; vm_compute; reflexivity.
Qed.
(** after decoding, field types no longer check: the node that the reference named is removed, and the
    reference is written all the same, now naming the node that moved up *)
Definition dec_heap : heap := let (h, _) := msgpack_decode empty_heap
  (match snd (msgpack_encode doc_heap sample_doc false true) with Ok b => b | Err _ => [] end) in h.
Definition dec_doc : doc := mkDoc (MMap [(s "id", MInt 1)]) [(s "main", s "one two")] [(s "token", 0%nat); (s "phrase", 1%nat)].
Definition gone_heap : heap := fst (layer_remove dec_heap 0%nat 0%nat).
Lemma gone_wf : wf gone_heap.
Proof.
  assert (W : wf dec_heap).
  { destruct (msgpack_encode doc_heap sample_doc false true) as [h1 [b|]] eqn:E; [|vm_compute in E; discriminate].
    destruct (msgpack_round doc_heap sample_doc false true h1 b [] empty_heap (dv_ok _ _ sample_valid) E wf_empty) as (h2 & d' & A & _ & W2 & _).
    rewrite app_nil_r in A. unfold dec_heap. rewrite E. cbn [snd]. rewrite A. exact W2. }
  unfold gone_heap. destruct (layer_remove dec_heap 0%nat 0%nat) as [h' r] eqn:E.
  assert (L : (0 < h_lnext dec_heap)%nat) by (vm_compute; auto).
  exact (proj1 (remove_one_spec dec_heap 0%nat 0%nat h' r W L E)).
Qed.
Theorem C31_decoded_refuted : exists h d h1 b, wf h /\ known h d /\
  dget (n_fieldsof h 1%nat) (s "head") = Some (VNode 0%nat) /\ doc_node h d (s "token") 0%nat 1%nat /\ ~ own_node h d (s "token") 0%nat /\
  msgpack_encode h d false true = (h1, Ok b) /\
  exists h2 d', msgpack_decode empty_heap b = (h2, Ok d') /\ dget (n_fieldsof h2 0%nat) (s "head") = Some (VNode 0%nat).
Proof.
  exists gone_heap, dec_doc, (fst (msgpack_encode gone_heap dec_doc false true)),
    (match snd (msgpack_encode gone_heap dec_doc false true) with Ok b => b | Err _ => [] end).
  split; [exact gone_wf|]. split; [intros k l [[= <- <-]|[[= <- <-]|[]]]; vm_compute; auto|]. split; [vm_compute; reflexivity|]. split; [split; vm_compute; auto|]. split.
  { intros (l & p & Hl & Hp). vm_compute in Hl. injection Hl as <-. apply nth_error_In in Hp. vm_compute in Hp. destruct Hp as [[=]|[]]. }
  split.
  { assert (E : snd (msgpack_encode gone_heap dec_doc false true) = Ok (match snd (msgpack_encode gone_heap dec_doc false true) with Ok b => b | Err _ => [] end)) by (vm_compute; reflexivity).
    destruct (msgpack_encode gone_heap dec_doc false true) as [h1 r]. simpl in *. rewrite <- E. reflexivity. }
  do 2 eexists. split; vm_compute; reflexivity.
Qed.
Print Assumptions C31_other_refuted. Print Assumptions C31_decoded_refuted.
