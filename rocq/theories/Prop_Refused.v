(** C116: what is refused, and with which exception. *)
From Verif Require Import PyBase PyBaseFacts Model_Printout Model_PyRepr Model_Declare Model_Text Model_Heap Model_Layer Model_Types Model_Msgpack Model_Document Model_Codec Model_Lazy Model_Collection Model_Boundary
  Spec_Layer Spec_Msgpack Spec_Document Spec_Codec Spec_Types Spec_History Spec_Refused Proof_Msgpack Proof_Refused Proof_Refused2 Proof_Refused3.
From Verif Require Spec_Xml.
Local Open Scope Z_scope.

(** Packing fails exactly for the objects that do not fit, with the exception of the first part that does not. *)
Theorem C116_packed : forall o e, pack o = Err e <-> refused o e.
Proof. exact pack_err. Qed.
Print Assumptions C116_packed.
(** A document with a field whose layer or text is missing is refused with SchemaError, whatever the options, and nothing changes. *)
Theorem C116_missing : forall h d ex tv, (forall k f t, declared h d k f t -> option_ok t) ->
  (exists k f t x, declared h d k f t /\ (targets_layer t x /\ ~ In x (dkeys (d_layers d)) \/ targets_text t x /\ ~ In x (dkeys (d_texts d)))) ->
  msgpack_encode h d ex tv = (h, Err SchemaError).
Proof. exact missing_refused. Qed.
Print Assumptions C116_missing.
(** A document in order but for a field that is not declared is refused with SchemaValidationError by the defaults of encode, *)
Theorem C116_undeclared : forall h d, doc_nearly h d -> (forall k l n, doc_node h d k l n -> node_valid h l n) -> has_undeclared h d ->
  exists h1, msgpack_encode h d false true = (h1, Err SchemaValidationError).
Proof. exact undeclared_refused. Qed.
Print Assumptions C116_undeclared.
(** and encoded with extra_fields_ok or without type_validation, whatever fields its nodes have. *)
Theorem C116_unchecked : forall h d ex tv, doc_nearly h d -> doc_fits h d -> ex = true \/ tv = false ->
  exists h1 e, codec_encode h d ex tv = (h1, Ok e) /\
    ((forall os b, In os ([ed_props e] :: [texts_obj (ed_texts e)] :: map layer_objs (ed_layers e)) -> pack_all os = Ok b -> zlen b < 18446744073709551616) ->
     exists bytes, msgpack_encode h d ex tv = (h1, Ok bytes)).
Proof. exact unchecked_encodes. Qed.
Print Assumptions C116_unchecked.
(** The main text can be set once. *)
Theorem C116_main_text : forall d t, (In (s "main") (dkeys (d_texts d)) -> set_maintext d t = Err AssertionError) /\
  (~ In (s "main") (dkeys (d_texts d)) -> exists d1, set_maintext d t = Ok d1 /\ dget (d_texts d1) (s "main") = Some t /\
     (forall k, k <> s "main" -> dget (d_texts d1) k = dget (d_texts d) k) /\ d_props d1 = d_props d /\ d_layers d1 = d_layers d).
Proof. exact main_text. Qed.
Print Assumptions C116_main_text.
(** BoundaryReader: the empty file, exponents outside of 12 to 30. *)
Theorem C116_open : forall f, (br_open f = Err IndexError <-> f = []) /\
  (br_open f = Err IOError <-> exists c r, f = c :: r /\ ~ (12 <= Z.of_N c <= 30)) /\
  forall e, br_open f = Err e -> e = IndexError \/ e = IOError.
Proof. exact open_refused. Qed.
Print Assumptions C116_open.
(** BoundaryReader.seek: negative positions but -1; the file stays where it was. *)
Theorem C116_seek : forall r o, 12 <= br_b r <= 30 -> (snd (br_seek r o) = Err ValueError <-> o < -1) /\
  (forall e, snd (br_seek r o) = Err e -> e = ValueError /\ br_pos (fst (br_seek r o)) = br_pos r) /\ (-1 <= o -> snd (br_seek r o) = Ok o).
Proof. exact seek_refused. Qed.
Print Assumptions C116_seek.
(** What is neither a document nor an encoded one is not written, and the writer is as before. *)
Theorem C116_write : forall h w, writer_write h w WOther = (h, w, Err ValueError).
Proof. exact write_refused. Qed.
Print Assumptions C116_write.
(** repr(document) is there exactly if every property has a text, and is this text. *)
Theorem C116_repr : forall d ps x, d_props d = MMap ps -> (doc_repr d = Ok x <-> exists nl nt vs,
  Spec_Xml.int_text (zlen (d_layers d)) nl /\ Spec_Xml.int_text (zlen (d_texts d)) nt /\ Forall2 (fun kv v => shown_as (snd kv) v) ps vs /\
  x = s "Document(" ++ nl ++ s " layers, " ++ nt ++ s " texts" ++ List.concat (map (fun kv => s ", " ++ fst (fst kv) ++ s "=" ++ snd kv) (combine ps vs)) ++ s ")").
Proof. exact repr_shown. Qed.
Print Assumptions C116_repr.
(** A number of more than 4300 digits among the properties makes it fail. *)
Theorem C116_repr_long : forall d pre k v post, d_props d = MMap (pre ++ (k, v) :: post) -> (forall kv, In kv pre -> exists x, shown_as (snd kv) x) -> too_long v ->
  doc_repr d = Err ValueError.
Proof. exact repr_long. Qed.
Print Assumptions C116_repr_long.

(** ** Cases *)
Example C116_packed_case : pack (MArr [MInt 1; MMap [(s "a", MInt (2 ^ 64)); ([0xD800%N], MNil)]; MInt (- 2 ^ 64)]) = Err OverflowError /\
  pack (MArr [MMap [(s "b", MNil); ([0xD800%N], MInt (2 ^ 64))]]) = Err UnicodeError /\ refused (MArr [MInt 1; MInt (2 ^ 64)]) OverflowError.
Proof.
  split; [vm_compute; reflexivity|]. split; [vm_compute; reflexivity|]. apply (rf_arr [MInt 1] (MInt (2 ^ 64)) []); [reflexivity| |].
  - constructor; [constructor; lia|constructor].
  - constructor. lia.
Qed.
Definition pointing : heap := fst (alloc_layer empty_heap (new_layer (s "a") [(s "to", mkDT KNoderef TNodeRef [(s "layer", VStr (s "b"))])])).
Definition pointing_doc : doc := mkDoc (MMap []) [] [(s "a", 0%nat)].
Example C116_missing_case : (forall k f t, declared pointing pointing_doc k f t -> option_ok t) /\
  (exists k f t x, declared pointing pointing_doc k f t /\ targets_layer t x /\ ~ In x (dkeys (d_layers pointing_doc))) /\
  snd (msgpack_encode pointing pointing_doc true false) = Err SchemaError.
Proof.
  split; [|split; [|vm_compute; reflexivity]].
  - intros k f t (l & [E|[]] & Hf). inversion E; subst. cbn in Hf. destruct Hf as [E2|[]]. inversion E2; subst. split; [intros _; exists (s "b"); reflexivity|discriminate].
  - exists (s "a"), (s "to"), (mkDT KNoderef TNodeRef [(s "layer", VStr (s "b"))]), (s "b"). split; [exists 0%nat; split; left; reflexivity|]. split; [split; [left; reflexivity|reflexivity]|].
    intros [H|[]]. discriminate H.
Qed.
Example C116_case : set_maintext (mkDoc (MMap []) [(s "main", s "x")] []) (s "y") = Err AssertionError /\ set_maintext (mkDoc (MMap []) [] []) (s "y") = Ok (mkDoc (MMap []) [(s "main", s "y")] []) /\
  br_open [11%N] = Err IOError /\ snd (br_seek (mkBR [12%N] 1 12 0) (-2)) = Err ValueError /\ snd (br_seek (mkBR [12%N] 1 12 0) (-1)) = Ok (-1) /\
  doc_repr (mkDoc (MMap [(s "id", MInt 5); (s "ok", MBool true)]) [] []) = Ok (s "Document(0 layers, 0 texts, id=5, ok=True)").
Proof. vm_compute. repeat split. Qed.
(** one node with a declared and an undeclared field *)
Definition extra_heap : heap := exec_all Z.leb empty_heap [OLayer (s "b") [(s "d", T_binary)]; OAdd 0%nat [(s "d", VBytes [1%N; 255%N]); (s "more", VStr (s "x"))]].
Definition extra_doc : doc := mkDoc (MMap []) [] [(s "b", 0%nat)].
Ltac extra_str := split; [apply Forall_forall; intros c Hc; vm_compute in Hc; repeat (destruct Hc as [<-|Hc]; [left; reflexivity|]); destruct Hc|vm_compute; reflexivity].
Example C116_undeclared_case : doc_nearly extra_heap extra_doc /\ (forall k l n, doc_node extra_heap extra_doc k l n -> node_valid extra_heap l n) /\ has_undeclared extra_heap extra_doc /\
  doc_fits extra_heap extra_doc /\ snd (msgpack_encode extra_heap extra_doc false true) = Err SchemaValidationError /\
  (exists b, snd (msgpack_encode extra_heap extra_doc true true) = Ok b /\ snd (msgpack_encode extra_heap extra_doc false false) = Ok b).
Proof.
  assert (Nd : forall k l n, doc_node extra_heap extra_doc k l n -> k = s "b" /\ l = 0%nat /\ n = 0%nat).
  { intros k l n [[[= <- <-]|[]] Hn]. vm_compute in Hn. destruct Hn as [[= <-]|[]]. auto. }
  assert (Dc : forall k f t, declared extra_heap extra_doc k f t -> f = s "d" /\ t = T_binary).
  { intros k f t (l & [[= <- <-]|[]] & Hf). vm_compute in Hf. destruct Hf as [[= <- <-]|[]]. auto. }
  assert (Va : forall f v t, dget (n_fieldsof extra_heap 0%nat) f = Some v -> dget (l_fields (h_layer extra_heap 0%nat)) f = Some t -> v = VBytes [1%N; 255%N] /\ t = T_binary).
  { intros f v t Hv Ht. apply dget_In in Hv. vm_compute in Hv. destruct Hv as [[= <- <-]|[[= <- <-]|[]]]; vm_compute in Ht; [injection Ht as <-; auto|discriminate]. }
  split; [split; [split|..]|]; [..|split; [|split; [|split; [split|split]]]].
  - apply Proof_Layer4.ops_ok_wf, Proof_Layer4.ops_okb_sound. vm_compute. reflexivity.
  - intros k l [[= <- <-]|[]]. vm_compute. auto.
  - constructor.
  - repeat constructor; simpl; tauto.
  - repeat constructor.
  - intros k f t Hd. destruct (Dc _ _ _ Hd) as [-> ->]. split; [discriminate|]. split; [discriminate|]. split; [split; [simpl; intuition discriminate|discriminate]|]. split; [vm_compute; repeat constructor; simpl; tauto|].
    vm_compute. intros o v Hov. repeat (destruct Hov as [[= <- <-]|Hov]; [constructor|]). destruct Hov.
  - intros k l n f v t Hn Hv Ht. destruct (Nd _ _ _ Hn) as (-> & -> & ->). destruct (Va f v t Hv Ht) as [-> ->]. apply vo_bytes; [reflexivity|]. repeat constructor.
  - intros k l [[= <- <-]|[]] f t Hf. apply dget_In in Hf. vm_compute in Hf. destruct Hf as [[= <- <-]|[]]. exists (s "b"). vm_compute. auto.
  - intros k f t x Hd [H _]. destruct (Dc _ _ _ Hd) as [-> ->]. simpl in H. intuition discriminate.
  - intros k f t x Hd [H _]. destruct (Dc _ _ _ Hd) as [-> ->]. discriminate.
  - intros k l n Hn. destruct (Nd _ _ _ Hn) as (-> & -> & ->). intros f t v Ht Hv. destruct (Va f v t Hv Ht) as [-> ->]. exists (s "b"). split; [reflexivity|]. constructor. reflexivity.
  - exists (s "b"), 0%nat, 0%nat, (s "more"), (VStr (s "x")). split; [split; vm_compute; auto|]. split; [vm_compute; auto|]. vm_compute. intros [H|[]]. discriminate.
  - apply pack_fits. eexists. vm_compute. reflexivity.
  - reflexivity.
  - intros k t [].
  - reflexivity.
  - intros k l [[= <- <-]|[]]. split; [extra_str|split; vm_compute; reflexivity].
  - intros k f t Hd. destruct (Dc _ _ _ Hd) as [-> ->]. split; [extra_str|]. split; [reflexivity|]. intros o v Hov. vm_compute in Hov.
    repeat (destruct Hov as [[= <- <-]|Hov]; [split; [extra_str|first [exact I|extra_str|simpl; lia]]|]). destruct Hov.
  - intros k l n f t v Hn Ht Hv. destruct (Nd _ _ _ Hn) as (-> & -> & ->). destruct (Va f v t Hv Ht) as [-> ->]. simpl. first [exact I|vm_compute; reflexivity|lia].
  - vm_compute. reflexivity.
  - eexists. split; vm_compute; reflexivity.
Qed.
Example C116_repr_case : Forall2 (fun kv v => shown_as (snd kv) v) [(s "id", MInt (-5)); (s "ok", MBool true)] [s "-5"; s "True"] /\ too_long (MInt (- 10 ^ 4300)) /\ ~ too_long (MInt (- 10 ^ 4299)).
Proof.
  assert (L : forall i, too_long (MInt i) <-> 4300 < zlen (str_int (Z.abs i))).
  { intros i. split; [intros (j & y & E & H & L); apply int_text_is in H; subst y; injection E as ->; exact L|intros L; exists i, (str_int (Z.abs i)); split; [reflexivity|]; split; [apply int_text_is; reflexivity|exact L]]. }
  split; [|split].
  - constructor; [|constructor; [constructor|constructor]]. apply sa_int; [apply int_text_is; reflexivity|]. intros y H. apply int_text_is in H. subst y. vm_compute. discriminate.
  - apply L. vm_compute. reflexivity.
  - rewrite L. vm_compute. discriminate.
Qed.
