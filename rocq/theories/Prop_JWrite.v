(** C112: which documents the Java port writes. *)
From Verif Require Import PyBase Model_Text Model_Heap Model_Layer Model_Types Model_Msgpack Model_JUnits Model_JCodec Model_JEncode Spec_Msgpack Spec_JCodec Spec_JEncode Spec_JWrite Proof_JWrite Proof_JWrite2 Prop_JEncode.
Local Open Scope Z_scope.

(** A document that is what it declares is written if it needs less than 2 GiB; the bytes are at most as many as predicted. *)
Theorem C112_written : forall j, jdoc_ok j -> doc_chars j -> doc_weight j < 2147483648 -> exists bytes, java_encode j = Ok bytes /\ zlen bytes <= doc_weight j.
Proof. exact small_written. Qed.
Print Assumptions C112_written.

(** The first field, in the order of the maps, that names a text or a layer that is not there, or names none, decides. *)
Theorem C112_schema : forall j a t b, field_types j = a ++ t :: b -> Forall (fine j) a ->
  (absent j t -> java_encode j = Err DataError) /\ (nameless t -> java_encode j = Err AttributeError).
Proof. exact first_refused. Qed.
Print Assumptions C112_schema.

(** When the schema is fine, a value in a field of spans that is no span is refused, wherever it is. *)
Theorem C112_spans : forall j, Forall (fine j) (field_types j) -> spanless j -> java_encode j = Err NotImplementedError.
Proof. exact spans_refused. Qed.
Print Assumptions C112_spans.

(** Otherwise, a document that is what it declares is refused for its size only, and never without need. *)
Theorem C112_long : forall j, jdoc_ok j -> doc_chars j -> java_sizes j ->
  (exists bytes, java_encode j = Ok bytes /\ zlen bytes < 2147483648) \/ java_encode j = Err ValueError /\ 2147483648 <= doc_weight j.
Proof. exact written_or_long. Qed.
Print Assumptions C112_long.
(** A property that takes 2 GiB alone is refused. *)
Theorem C112_huge : forall j k v, jdoc_ok j -> doc_chars j -> java_sizes j -> In (k, v) (jd_props j) -> huge v -> java_encode j = Err ValueError.
Proof. exact huge_refused. Qed.
Print Assumptions C112_huge.

Lemma sample_j_chars : doc_chars sample_j.
Proof.
  assert (D : forall x : pystr, forallb (fun c => (c <? 0xD800) || (0xDFFF <? c) && (c <? 0x110000))%N x = true -> Forall scalar x).
  { intros x H. rewrite forallb_forall in H. apply Forall_forall. intros c I. specialize (H c I). unfold scalar. apply Bool.orb_true_iff in H. destruct H as [H|H]; [left; apply N.ltb_lt; exact H|]. apply andb_prop in H. destruct H as [H1 H2]. right. split; apply N.ltb_lt; assumption. }
  split.
  - repeat constructor; try exact I; apply D; vm_compute; reflexivity.
  - repeat constructor; apply D; vm_compute; reflexivity.
  - intros k fs rows [E|[E|[]]]; injection E as <- <- <-; (split; [apply D; vm_compute; reflexivity|]); split.
    1,3: intros f t I; cbn in I; repeat (destruct I as [I|I]; [injection I as <- <-; split; [apply D; vm_compute; reflexivity|repeat constructor; try exact Logic.I; apply D; vm_compute; reflexivity]|]); destruct I.
    all: intros row f t v I1 I2 E; cbn in I1, I2; repeat (destruct I1 as [<-|I1]; [repeat (destruct I2 as [I2|I2]; [injection I2 as <- <-; vm_compute in E; first [discriminate|injection E as <-; cbn [chars]; first [exact Logic.I|apply D; vm_compute; reflexivity]]|]); destruct I2|]); destruct I1.
Qed.
Example C112_case :
  (jdoc_ok sample_j /\ doc_chars sample_j /\ doc_weight sample_j < 2147483648) /\
  (let t := mkJT (JT TSpan) [(s "context", JStr (s "other"))] in let j := mkJDoc [] [(s "main", s "ab")] [(s "x", ([(s "f", t)], []))] in field_types j = [] ++ t :: [] /\ absent j t) /\
  (let t := mkJT (JT TNodeRef) [] in let j := mkJDoc [] [] [(s "x", ([(s "f", t)], []))] in field_types j = [] ++ t :: [] /\ nameless t) /\
  (let t := mkJT (JT TSpan) [(s "context", JStr (s "main"))] in let j := mkJDoc [] [(s "main", s "ab")] [(s "x", ([(s "f", t)], [[]; [(s "f", JInt 3)]]))] in Forall (fine j) (field_types j) /\ spanless j).
Proof.
  split; [split; [exact sample_j_ok|split; [exact sample_j_chars|vm_compute; reflexivity]]|]. split; [|split].
  - split; [reflexivity|]. exists (s "context"), (s "other"). split; [left; split; reflexivity|]. split; [reflexivity|]. intros [H|[]]. discriminate.
  - split; [reflexivity|]. exists (s "layer"). split; [right; split; [left; reflexivity|reflexivity]|reflexivity].
  - split.
    + repeat constructor. intros key [[_ ->]|[[E|E] _]]; [|discriminate|discriminate]. exists (s "main"). split; [reflexivity|left; reflexivity].
    + exists (s "x"). do 2 eexists. exists [(s "f", JInt 3)]. do 3 eexists. split; [left; reflexivity|]. split; [right; left; reflexivity|]. split; [left; reflexivity|]. split; [reflexivity|]. split; [reflexivity|]. intros c a b. discriminate.
Qed.
(** a document with a property of n zeros *)
Lemma zeros_ok n : let j := mkJDoc [(s "b", JBin (repeat 0%N n))] [] [] in jdoc_ok j /\ doc_chars j /\ java_sizes j.
Proof.
  cbn zeta. set (x := repeat 0%N n). assert (B : bytes x) by (apply Forall_forall; intros c I; apply repeat_spec in I; subst c; reflexivity). clearbody x. split; [|split].
  - split; cbn [jd_props jd_texts jd_layers].
    + split; [repeat constructor; intros []|]. intros k v [E|[]]. injection E as <- <-. constructor. exact B.
    + split; [constructor|intros c u []].
    + constructor.
    + intros k fs rows [].
    + intros k fs rows row f t v [].
  - split; cbn [jd_props jd_texts jd_layers]; [|constructor|intros k fs rows []]. repeat constructor; vm_compute; left; reflexivity.
  - split; cbn [jd_texts jd_layers]; [intros c u []|intros k fs rows []].
Qed.
Example C112_long_case : (jdoc_ok sample_j /\ doc_chars sample_j /\ java_sizes sample_j) /\
  exists j k v, jdoc_ok j /\ doc_chars j /\ java_sizes j /\ In (k, v) (jd_props j) /\ huge v /\ java_encode j = Err ValueError.
Proof.
  split.
  - split; [exact sample_j_ok|]. split; [exact sample_j_chars|]. split.
    + intros c u [E|[]]. injection E as <- <-. vm_compute. reflexivity.
    + intros k fs rows [E|[E|[]]]; injection E as <- <- <-; vm_compute; reflexivity.
  - assert (H : exists n, Z.of_nat n = 2147483648) by (exists (Z.to_nat 2147483648); apply Z2Nat.id; lia). destruct H as [n Hn].
    destruct (zeros_ok n) as (J & C & S). assert (Hg : huge (JBin (repeat 0%N n))) by (cbn [huge]; unfold zlen; rewrite repeat_length, Hn; lia).
    eexists _, (s "b"), _. split; [exact J|]. split; [exact C|]. split; [exact S|]. split; [left; reflexivity|]. split; [exact Hg|]. eapply C112_huge; [exact J|exact C|exact S|left; reflexivity|exact Hg].
Qed.
