(** Proofs about the XML string encoder. *)
From Verif Require Import PyBase Model_XmlString Spec_XmlString.
From Coq Require Import Lia.
Local Open Scope N_scope.
Lemma keeps_iff c : xml_keeps c = true <-> xml_char c /\ c <= 65535.
Proof.
  unfold xml_keeps, xml_char. rewrite !Bool.orb_true_iff, !Bool.andb_true_iff, !N.eqb_eq, !N.leb_le. lia.
Qed.
Lemma xml_pointwise x : Forall2 (fun c d => xml_char d /\ (xml_char c /\ c <= 65535 -> d = c) /\ (~ (xml_char c /\ c <= 65535) -> d = 32)) x (xml_string x).
Proof.
  unfold xml_string, string_encoder. change (s " ") with [32]. induction x as [|c x IH]; [constructor|]. cbn [flat_map].
  destruct (xml_keeps c) eqn:E; cbn [app]; (constructor; [|exact IH]).
  - apply keeps_iff in E. tauto.
  - assert (N : ~ (xml_char c /\ c <= 65535)) by (rewrite <- keeps_iff, E; discriminate). split; [unfold xml_char; lia|tauto].
Qed.
Lemma xml_legal repl x : Forall xml_char repl -> Forall xml_char (string_encoder repl x).
Proof.
  intros R. unfold string_encoder. induction x as [|c x IH]; [constructor|]. cbn [flat_map]. apply Forall_app. split; [|exact IH].
  destruct (xml_keeps c) eqn:E; [|exact R]. apply keeps_iff in E. constructor; [tauto|constructor].
Qed.
Lemma xml_id repl x : Forall (fun c => xml_char c /\ c <= 65535) x -> string_encoder repl x = x.
Proof.
  unfold string_encoder. induction 1 as [|c x H F IH]; [reflexivity|]. cbn [flat_map]. apply keeps_iff in H. rewrite H. cbn [app]. f_equal. exact IH.
Qed.
Lemma xml_idem x : xml_string (xml_string x) = xml_string x.
Proof.
  apply xml_id. unfold xml_string, string_encoder. change (s " ") with [32]. induction x as [|c x IH]; [constructor|]. cbn [flat_map]. apply Forall_app. split; [|exact IH].
  destruct (xml_keeps c) eqn:E; (constructor; [|constructor]); apply keeps_iff; [exact E|reflexivity].
Qed.
