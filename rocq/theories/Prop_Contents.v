(** Property C117: what a file says about its document. *)
From Verif Require Import PyBase PyBaseFacts Model_Text Model_Heap Model_Layer Model_Types Model_Msgpack Model_Document Model_Codec Model_Json
  Spec_Layer Spec_Types Spec_Msgpack Spec_Document Spec_Codec Spec_Spell Spec_Contents Proof_Contents Proof_Contents2 Proof_Contents3 Prop_Document Prop_Codec.
Local Open Scope Z_scope.

(** The bytes of a document are its contents, section by section: "DM_1"; the properties; the schema; the texts, cut where spans
    begin and end; and for every layer the number of nodes and, field by field, what the nodes hold: nodes by their
    positions, spans by the parts of the text at which they begin and end, ranges of nodes by a position and a distance. *)
Theorem C117_contents : forall h d ex tv h1 bs, doc_ok h d -> msgpack_encode h d ex tv = (h1, Ok bs) ->
  exists e, contents h d e /\ sections e bs.
Proof. exact file_contents. Qed.
Print Assumptions C117_contents.

(** A document has one contents. *)
Theorem C117_unique : forall h d e e', doc_ok h d -> contents h d e -> contents h d e' -> e = e'.
Proof. exact contents_unique. Qed.
Print Assumptions C117_unique.

(** Any bytes that spell the contents of an encodable document, in whatever way and whatever sizes they state, are read as that
    document: what decode understands is fixed by the description, not by what encode does. *)
Theorem C117_read : forall h d ex tv h1 bs e bs' rest h0, doc_ok h d -> msgpack_encode h d ex tv = (h1, Ok bs) -> contents h d e -> file_of e bs' -> wf h0 ->
  exists h2 d', msgpack_decode h0 (bs' ++ rest) = (h2, Ok d') /\ same_doc h d h2 d' /\ wf h2 /\ untouched h0 h2.
Proof. exact contents_read. Qed.
Print Assumptions C117_read.

(** The same for JSON: encode_object returns the contents, and any object with these contents, its dictionaries in whatever order
    and with whatever else in them, is read as the document. *)
Theorem C117_json : forall h d h1 o, doc_ok h d -> json_encode h d = (h1, Ok o) -> exists e, contents h d e /\ json_says e o.
Proof. exact json_contents. Qed.
Print Assumptions C117_json.
Theorem C117_json_read : forall h d h1 o e o' h0, doc_ok h d -> json_encode h d = (h1, Ok o) -> contents h d e -> json_says e o' -> wf h0 ->
  exists h2 d', json_decode h0 o' = (h2, Ok d') /\ same_doc h d h2 d' /\ wf h2 /\ untouched h0 h2.
Proof. exact json_contents_read. Qed.
Print Assumptions C117_json_read.

(** The sample document: parts of the text, and some columns. *)
Example C117_case : doc_ok doc_heap sample_doc /\
  match codec_encode doc_heap sample_doc false true with
  | (_, Ok e) => contents doc_heap sample_doc e /\ ed_texts e = [(s "main", [s "one"; s " "; s "two"])] /\
      map (fun l => (el_num l, map ef_col (el_fields l))) (ed_layers e) =
        [(2, [[MInt 0; MInt 1; MInt 2; MInt 3]; [MStr (s "N"); MNil]; [MNil; MInt 0]]); (1, [[MArr [MInt 0; MInt 1]]; [MArr [MInt 1; MInt 0]]; [MInt 7]])]
  | _ => False
  end.
Proof.
  split; [apply sample_valid|]. destruct (codec_encode doc_heap sample_doc false true) as [h1 [e|]] eqn:E; [|vm_compute in E; discriminate].
  split; [eapply encoded_contents; [apply sample_valid|exact E]|]. apply (f_equal (fun x => match snd x with Ok e => Some e | Err _ => None end)) in E. cbn [snd] in E. revert E. vm_compute. intros [= <-]. split; reflexivity.
Qed.

(** The object of the sample document with its five entries in another order, and one more. *)
Definition turned (o : mobj) : mobj :=
  match o with MMap [(k, MMap m)] => MMap [(s "more", MNil); (k, MMap ((s "note", MInt 1) :: rev m))] | _ => o end.
Example C117_json_case :
  match codec_encode doc_heap sample_doc false true with
  | (_, Ok e) => json_says e (turned (json_object e)) /\ turned (json_object e) <> json_object e
  | _ => False
  end.
Proof.
  destruct (codec_encode doc_heap sample_doc false true) as [h1 [e|]] eqn:E; [|vm_compute in E; discriminate].
  apply (f_equal (fun x => match snd x with Ok e => Some e | Err _ => None end)) in E. cbn [snd] in E. revert E. vm_compute. intros [= <-]. split; [|discriminate].
  do 5 eexists. split; [eexists; split; reflexivity|]. split; [eexists; split; reflexivity|]. split; [eexists; split; reflexivity|].
  split; [eexists; split; reflexivity|]. split; [eexists; split; reflexivity|]. split; [eexists; split; reflexivity|]. split; [repeat constructor|]. split.
  - repeat (constructor; [split; [reflexivity|]; eexists; split; [reflexivity|]; repeat (constructor; [split; [reflexivity|]; first [reflexivity|split; eexists; split; reflexivity]|]); constructor|]). constructor.
  - intros l [<-|[<-|[]]]; (split; [eexists; split; reflexivity|]); eexists; (split; [eexists; split; reflexivity|]); intros f Hf; repeat (destruct Hf as [<-|Hf]; [eexists; split; reflexivity|]); destruct Hf.
Qed.
