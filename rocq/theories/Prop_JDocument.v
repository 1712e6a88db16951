(** Property C101: the parts of a written document can be taken out without decoding it, except that of the layers only the first is found, and that the parts cannot be put together again. *)
From Verif Require Import PyBase Model_Layer Model_Types Model_Msgpack Model_Codec Model_JUnits Model_JStream Model_JCodec Model_JEncode Model_JDocument
  Spec_JEncode Spec_JDocument Prop_JEncode Proof_JDocument.
Local Open Scope Z_scope.

(** The four compartments follow each other; the first two parse as the properties and the schema, which are those of the decoded document.
    The last one is all of the layers just when there is one. *)
Theorem C101_compartments_partial : forall bytes n P Q rest, written bytes n P Q -> (0 < n)%nat ->
  exists m m' p sc t l tail js sch, md_open (bytes ++ rest) = Ok m /\ md_schema m = None /\ bytes = magic ++ p ++ sc ++ t ++ l ++ tail /\ (tail = [] <-> n = 1%nat) /\
    (forall c, md_compartment c m = (m', Ok (part c p sc t l)) /\ md_compartment c m' = (m', Ok (part c p sc t l))) /\
    (forall beyond, md_properties beyond m = (m', Ok js) /\ md_properties beyond m' = (m', Ok js)) /\ md_schema m' = Some sch /\
    md_parse_props p = Ok js /\ md_parse_schema sc = Ok sch /\ P js /\ Q sch /\ (forall k, md_document m = Ok k -> jd_props k = js /\ map (fun kl => (fst kl, fst (snd kl))) (jd_layers k) = sch).
Proof. exact compartments_found. Qed.
Print Assumptions C101_compartments_partial.

(** Without layers the first call raises; the second one finds what there is. *)
Theorem C101_no_layers : forall bytes P Q, written bytes 0 P Q ->
  exists m m' p sc t js sch, md_open bytes = Ok m /\ bytes = magic ++ p ++ sc ++ t /\
    (forall c, md_compartment c m = (m', Err OutOfData)) /\ (forall beyond, md_properties beyond m = (m', Err OutOfData)) /\
    (forall c, md_compartment c m' = (m', match c with CLayers => Err ValueError | _ => Ok (part c p sc t []) end)) /\
    (forall beyond, md_properties beyond m' = (m', Ok js)) /\ md_schema m' = Some sch /\ P js /\ Q sch.
Proof. exact no_layers. Qed.
Print Assumptions C101_no_layers.

(** What is put together from compartments is never a document: the four bytes at the beginning are missing. *)
Theorem C101_together_fails : forall bytes n P Q rest m m' p x y z, written bytes n P Q -> (0 < n)%nat -> md_open (bytes ++ rest) = Ok m -> md_compartment CProps m = (m', Ok p) ->
  (2 <= length (x ++ y ++ z))%nat -> md_document (md_of p x y z) = Err IOError.
Proof. exact together_fails. Qed.
Print Assumptions C101_together_fails.

(** The constructor looks at these four bytes, and at nothing else. *)
Theorem C101_header : forall data, (exists m, md_open data = Ok m) <-> exists r, data = magic ++ r.
Proof. exact header_check. Qed.
Print Assumptions C101_header.
Theorem C101_header_refused : forall data, (forall r, data <> magic ++ r) -> md_open data = Err IOError.
Proof. exact header_refused. Qed.
Print Assumptions C101_header_refused.

(** A document with two layers, and one with none *)
Definition sample_bytes : list N := match java_encode sample_j with Ok b => b | Err _ => [] end.
Definition bare_j : jdoc := mkJDoc [(s "title", JStr (s "t"))] [] [].
Definition bare_bytes : list N := match java_encode bare_j with Ok b => b | Err _ => [] end.
Lemma bare_j_ok : jdoc_ok bare_j.
Proof.
  split.
  - split; [repeat constructor; simpl; tauto|]. intros k v [[= <- <-]|[]]. constructor.
  - split; [constructor|intros c u []].
  - constructor.
  - intros k fs rows [].
  - intros k fs rows row f t v [].
Qed.
Example C101_case : exists P Q P' Q', written sample_bytes 2 P Q /\ written bare_bytes 0 P' Q'.
Proof.
  eexists _, _, _, _. split.
  - apply (written_java sample_j); [exact sample_j_ok|vm_compute; reflexivity].
  - apply (written_java bare_j); [exact bare_j_ok|vm_compute; reflexivity].
Qed.
Example C101_case_run : match md_open sample_bytes with
  | Ok m => match md_properties [] m, md_compartment CTexts m, md_compartment CLayers m with
            | (m1, Ok js), (m2, Ok t), (m3, Ok l) => js = [(s "n", JInt 5); (s "title", JStr (s "t"))] /\ m1 = m2 /\ zlen t = 17 /\ zlen l = 15 /\ md_pos m3 = Some [4; 17; 17; 156; 156; 173; 173; 188]
            | _, _, _ => False
            end
  | Err _ => False
  end.
Proof. vm_compute. repeat split. Qed.
(** "layersCompartment is the rest of the document" *)
Theorem C101_layers_refuted : exists m m' l k rest, md_open sample_bytes = Ok m /\ md_compartment CLayers m = (m', Ok l) /\ md_document m = Ok k /\ length (jd_layers k) = 2%nat /\ sample_bytes = firstn 173 sample_bytes ++ l ++ rest /\ rest <> [].
Proof.
  eexists _, _, _, _, (skipn 188 sample_bytes). split; [vm_compute; reflexivity|]. split; [vm_compute; reflexivity|]. split; [vm_compute; reflexivity|]. split; [vm_compute; reflexivity|]. split; [vm_compute; reflexivity|]. vm_compute. discriminate.
Qed.
Print Assumptions C101_layers_refuted.
