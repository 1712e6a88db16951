(** C95: the texts of the Java port.  C96: its spans. *)
From Verif Require Import PyBase PyBaseFacts Model_Text Model_JText Spec_JText Proof_JText Proof_JText2 Proof_JText3.
Local Open Scope Z_scope.

(** Any sequence of making spans, giving them up and encoding the text with the spans still held behaves
    as with pairs of positions: which spans are accepted, the parts, the numbers of the spans. *)
Theorem C95_history : forall name text ops,
  jt_run (jt_new name text) [] ops = range_run text [] ops.
Proof. exact history_new. Qed.
Print Assumptions C95_history.

(** Encoding a text of any kind of past: it is cut at the ends of the given spans it still knows; their
    numbers name their positions; offsets it does not know keep the numbers they had; afterwards exactly
    the known offsets of the given spans are known. *)
Theorem C95_compile : forall t spans, jt_ok t ->
  exists t' parts, jt_prepare t spans = (t', Ok parts) /\
  parts = cut_text (jt_text t) (known_cuts t spans) /\
  List.concat parts = jt_text t /\ (jt_text t <> [] -> ~ In [] parts) /\
  (forall o, (o < jt_next t)%nat -> o_pos (jt_obj t' o) = o_pos (jt_obj t o)) /\
  (forall o, entered t o -> In o (used spans) -> names parts (o_num (jt_obj t' o)) (o_pos (jt_obj t o)) (jt_text t)) /\
  (forall o, (o < jt_next t)%nat -> ~ (entered t o /\ In o (used spans)) -> o_num (jt_obj t' o) = o_num (jt_obj t o)) /\
  jt_ok t' /\ jt_name t' = jt_name t /\ jt_text t' = jt_text t /\ jt_valid t' = jt_valid t /\ (jt_next t <= jt_next t')%nat /\
  (forall o, (o < jt_next t)%nat -> entered t' o <-> entered t o /\ In o (used spans)).
Proof. exact prepare_spec. Qed.
Print Assumptions C95_compile.

(** An offset outside the text (possible only after setValidating(false)) makes encoding fail. *)
Theorem C95_outside : forall t spans, jt_wf t ->
  (exists p, In p (known_cuts t spans) /\ ~ (0 <= p <= zlen (jt_text t))) -> snd (jt_prepare t spans) = Err IndexError.
Proof. exact prepare_outside. Qed.
Print Assumptions C95_outside.

(** Making a span: the condition for being accepted, its ends; nothing known before is lost. *)
Theorem C95_span : forall t a b, jt_wf t ->
  (jt_valid t = true -> ~ (0 <= a < zlen (jt_text t) /\ a <= b <= zlen (jt_text t)) -> jt_span t a b = (t, Err ValueError)) /\
  (jt_valid t = false \/ (0 <= a < zlen (jt_text t) /\ a <= b <= zlen (jt_text t)) ->
   exists t' s, jt_span t a b = (t', Ok s) /\ jt_wf t' /\ jt_name t' = jt_name t /\ jt_text t' = jt_text t /\ jt_valid t' = jt_valid t /\
     js_start t' s = a /\ js_stop t' s = b /\ current t' s /\ (jt_next t <= jt_next t')%nat /\
     (forall o, (o < jt_next t)%nat -> jt_obj t' o = jt_obj t o) /\ (forall o, entered t o -> entered t' o) /\
     (in_range t -> 0 <= a <= zlen (jt_text t) -> 0 <= b <= zlen (jt_text t) -> in_range t')).
Proof. exact span_spec. Qed.
Print Assumptions C95_span.

(** Reading parts. *)
Theorem C95_read : forall name parts t os, jt_read name parts = (t, os) ->
  jt_ok t /\ jt_name t = name /\ jt_text t = List.concat parts /\ jt_valid t = true /\
  length os = Datatypes.S (length parts) /\
  (forall i o, nth_error os i = Some o ->
     o_pos (jt_obj t o) = zlen (List.concat (firstn i parts)) /\ o_num (jt_obj t o) = 0 /\ (entered t o <-> nth_error parts i <> Some [])).
Proof. exact jt_read_spec. Qed.
Print Assumptions C95_read.

(** A span read back from its two numbers has the ends and the string it had. *)
Theorem C95_roundtrip : forall t spans t' parts x, jt_ok t -> Forall (current t) spans -> jt_prepare t spans = (t', Ok parts) ->
  In x spans -> forall name,
  let (t2, os) := jt_read name parts in
  jt_text t2 = jt_text t /\
  exists a b, nth_error os (Z.to_nat (fst (js_ids t' x))) = Some a /\ nth_error os (Z.to_nat (snd (js_ids t' x))) = Some b /\
    js_start t2 (a, b) = js_start t x /\ js_stop t2 (a, b) = js_stop t x /\ js_string t2 (a, b) = js_string t x /\
    (jt_text t <> [] -> current t2 (a, b)).
Proof. exact text_roundtrip. Qed.
Print Assumptions C95_roundtrip.

(** a text with three spans, of which one is given up *)
Definition hello : list N := s "hello world".
Definition hello_ops : list jtop := [Make 0 5; Make 6 11; Make 4 99; Make 11 11; Save; Make 2 4; Save; Drop 0; Save].
Example C95_history_case : jt_run (jt_new (s "main") hello) [] hello_ops =
  [Made (Ok (0, 5)); Made (Ok (6, 11)); Made (Err ValueError); Made (Err ValueError);
   Saved (Ok ([s "hello"; s " "; s "world"], [(0, 1); (2, 3)])); Made (Ok (2, 4));
   Saved (Ok ([s "he"; s "ll"; s "o"; s " "; s "world"], [(0, 3); (4, 5); (1, 2)])); Dropped;
   Saved (Ok ([s "he"; s "ll"; s "o "; s "world"], [(3, 4); (1, 2)]))].
Proof. vm_compute. reflexivity. Qed.

Definition made (t : jtext) (a b : Z) : jtext * jspan :=
  match jt_span t a b with (t1, Ok x) => (t1, x) | (t1, Err _) => (t1, (0%nat, 0%nat)) end.
Definition t_two : jtext := fst (made (fst (made (jt_new (s "main") hello) 0 5)) 6 11).
Definition word1 : jspan := snd (made (jt_new (s "main") hello) 0 5).
Definition word2 : jspan := snd (made (fst (made (jt_new (s "main") hello) 0 5)) 6 11).
Lemma t_two_ok : jt_ok t_two /\ current t_two word1 /\ current t_two word2.
Proof.
  split; [split; [split; [|split]|]|].
  - vm_compute. repeat constructor; simpl; intuition discriminate.
  - intros p o H. vm_compute in H. repeat (destruct H as [H|H]; [injection H as <- <-; vm_compute; split; [lia|reflexivity]|]). destruct H.
  - intros H. discriminate H.
  - intros p o H. vm_compute in H. repeat (destruct H as [H|H]; [injection H as <- <-; vm_compute; split; discriminate|]). destruct H.
  - unfold current, entered. vm_compute. tauto.
Qed.
Example C95_compile_case : snd (jt_prepare t_two [word1; word2]) = Ok [s "hello"; s " "; s "world"].
Proof. vm_compute. reflexivity. Qed.
Definition loose_text : jtext := jt_set_validating (jt_new (s "main") hello) false.
Example C95_outside_case : snd (jt_prepare (fst (made loose_text 3 20)) [snd (made loose_text 3 20)]) = Err IndexError.
Proof. vm_compute. reflexivity. Qed.
Example C95_read_case : let (t, os) := jt_read (s "main") [s "he"; []; s "llo"] in
  map (fun o => o_pos (jt_obj t o)) os = [0; 2; 2; 5] /\ map (knows t) os = [true; false; true; true].
Proof. vm_compute. auto. Qed.

(** A span that was left out of one encoding and comes back later (its node was removed and added again) is
    forgotten by the text: the text is not cut at its ends and it is written with the numbers it had. *)
Theorem C95_stale_refuted : exists t t1 t2 parts a b x, jt_ok t /\ current t a /\ current t b /\
  jt_prepare t [a] = (t1, Ok x) /\ jt_prepare t1 [a; b] = (t2, Ok parts) /\
  js_string t2 b = Ok (s "world") /\ parts = [s "hello"; s " world"] /\ js_ids t2 b = (0, 0) /\ knows t2 (fst b) = false.
Proof.
  exists t_two, (fst (jt_prepare t_two [word1])), (fst (jt_prepare (fst (jt_prepare t_two [word1])) [word1; word2])),
    [s "hello"; s " world"], word1, word2, [s "hello"; s " world"].
  destruct t_two_ok as (A & B & C). split; [exact A|]. split; [exact B|]. split; [exact C|].
  split; [vm_compute; reflexivity|]. split; [vm_compute; reflexivity|]. split; [vm_compute; reflexivity|].
  split; [reflexivity|]. split; vm_compute; reflexivity.
Qed.
Print Assumptions C95_stale_refuted.

(** ** C96 *)
(** The characters of a span are those of the text between its ends. *)
Theorem C96_reading : forall t x, 0 <= js_start t x -> js_start t x <= js_stop t x -> js_stop t x <= zlen (jt_text t) ->
  let str := sub (jt_text t) (js_start t x) (js_stop t x) in
  js_string t x = Ok str /\ js_length t x = zlen str /\
  (forall i, js_char_at t x i = if (0 <=? i) && (i <? zlen str)
      then match nth_error str (Z.to_nat i) with Some c => Ok c | None => Err IndexError end else Err IndexError) /\
  (forall a b, 0 <= a -> js_sub t x a b = java_sub str a b).
Proof. exact span_reading. Qed.
Print Assumptions C96_reading.

(** subSequence with a negative start reads the text before the span. *)
Theorem C96_sub_refuted : exists t x, jt_ok t /\ current t x /\ js_string t x = Ok (s "world") /\
  js_sub t x (-6) 5 = Ok (s "hello world").
Proof.
  exists t_two, word2. destruct t_two_ok as (A & B & C). split; [exact A|]. split; [exact C|]. split; vm_compute; reflexivity.
Qed.
Print Assumptions C96_sub_refuted.

(** covers is inclusion; intersects holds also of spans that only touch; compareTo orders by start, then
    stop, and is a total order. *)
Theorem C96_order : forall t x u y,
  (js_covers t x u y = true <-> js_start t x <= js_start u y /\ js_stop u y <= js_stop t x) /\
  (js_intersects t x u y = true <-> js_start t x <= js_stop u y /\ js_start u y <= js_stop t x) /\
  (js_compare t x u y = Eq <-> js_start t x = js_start u y /\ js_stop t x = js_stop u y) /\
  (js_compare t x u y = Lt <-> js_start t x < js_start u y \/ (js_start t x = js_start u y /\ js_stop t x < js_stop u y)) /\
  js_compare u y t x = CompOpp (js_compare t x u y).
Proof. exact span_order. Qed.
Print Assumptions C96_order.

(** Spans that share no character intersect in the Java port if one ends where the other starts. *)
Theorem C96_intersects_refuted : exists t x y p, js_start t x < js_stop t x /\ js_start t y < js_stop t y /\
  js_stop t x = p /\ js_start t y = p /\ js_intersects t x t y = true.
Proof.
  exists (fst (made (fst (made (jt_new (s "main") hello) 0 5)) 5 7)), (snd (made (jt_new (s "main") hello) 0 5)),
    (snd (made (fst (made (jt_new (s "main") hello) 0 5)) 5 7)), 5. vm_compute. repeat split; reflexivity.
Qed.
Print Assumptions C96_intersects_refuted.

(** Spans that their text knows are equal if and only if they have the same ends, as compareTo says. *)
Theorem C96_equal : forall t x y, jt_wf t -> current t x -> current t y ->
  (js_eq t x t y = true <-> js_start t x = js_start t y /\ js_stop t x = js_stop t y).
Proof. exact current_eq. Qed.
Print Assumptions C96_equal.
Example C96_equal_case : current t_two word1 /\ js_eq t_two word1 t_two word1 = true /\ js_eq t_two word1 t_two word2 = false.
Proof. split; [apply t_two_ok|]. split; vm_compute; reflexivity. Qed.

(** Texts are equal if and only if they have the same name and the same contents, *)
Theorem C96_equal_texts : forall t t', jt_eq t t' = true <-> jt_name t = jt_name t' /\ jt_text t = jt_text t'.
Proof. exact texts_eq. Qed.
Print Assumptions C96_equal_texts.
(** and equal spans of any two texts have the same ends in equal texts. *)
Theorem C96_equal_ends : forall t x t' y, js_eq t x t' y = true -> jt_name t = jt_name t' /\ jt_text t = jt_text t' /\ js_start t x = js_start t' y /\ js_stop t x = js_stop t' y.
Proof. exact other_eq. Qed.
Print Assumptions C96_equal_ends.
Example C96_equal_texts_case : jt_eq t_two (jt_new (s "main") hello) = true /\ jt_eq t_two (jt_new (s "main") (s "hello")) = false /\ jt_eq t_two (jt_new (s "title") hello) = false /\
  js_eq t_two word1 (fst (made (jt_new (s "main") hello) 0 5)) word1 = true.
Proof. repeat apply conj; vm_compute; reflexivity. Qed.

(** A span and its copy in the document read back are not equal: equals also compares the numbers given by
    the last encoding, and a text just read has none. *)
Theorem C96_copy_refuted : exists t' parts x t2 os a b, jt_prepare t_two [word1; word2] = (t', Ok parts) /\ x = word2 /\
  jt_read (jt_name t') parts = (t2, os) /\
  nth_error os (Z.to_nat (fst (js_ids t' x))) = Some a /\ nth_error os (Z.to_nat (snd (js_ids t' x))) = Some b /\
  jt_eq t' t2 = true /\ js_compare t' x t2 (a, b) = Eq /\ js_eq t' x t2 (a, b) = false.
Proof.
  exists (fst (jt_prepare t_two [word1; word2])), [s "hello"; s " "; s "world"], word2,
    (fst (jt_read (s "main") [s "hello"; s " "; s "world"])), (snd (jt_read (s "main") [s "hello"; s " "; s "world"])), 2%nat, 3%nat.
  split; [vm_compute; reflexivity|]. split; [reflexivity|]. split; [vm_compute; reflexivity|]. split; [vm_compute; reflexivity|].
  split; [vm_compute; reflexivity|]. split; [vm_compute; reflexivity|]. split; vm_compute; reflexivity.
Qed.
Print Assumptions C96_copy_refuted.
