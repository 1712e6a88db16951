(** C54: XML string encoding yields only legal characters. *)
From Verif Require Import PyBase Spec_XmlString Proof_XmlString.
Local Open Scope N_scope.

(** Character by character: the result is legal; legal characters of the basic plane are kept; all others become a space.
    (Forall2: the length is preserved.)
    What the property leaves out, characters above the basic plane: see C54_supplementary_refuted. *)
Theorem C54_chars : forall x,
  Forall2 (fun c d => xml_char d /\ (xml_char c /\ c <= 65535 -> d = c) /\ (~ (xml_char c /\ c <= 65535) -> d = 32)) x (xml_string x).
Proof. exact xml_pointwise. Qed.
Print Assumptions C54_chars.

(** With any legal replacement the result is legal. *)
Theorem C54_legal : forall repl x, Forall xml_char repl -> Forall xml_char (string_encoder repl x).
Proof. exact xml_legal. Qed.
Print Assumptions C54_legal.

(** Strings of legal characters of the basic plane are unchanged, so encoding twice is encoding once. *)
Theorem C54_unchanged : forall repl x, Forall (fun c => xml_char c /\ c <= 65535) x -> string_encoder repl x = x.
Proof. exact xml_id. Qed.
Print Assumptions C54_unchanged.

Theorem C54_twice : forall x, xml_string (xml_string x) = xml_string x.
Proof. exact xml_idem. Qed.
Print Assumptions C54_twice.

(** A legal character above U+FFFF (here U+1F600) becomes a space. *)
Theorem C54_supplementary_refuted : exists c, xml_char c /\ xml_string [c] <> [c].
Proof. exists 128512. split; [right; right; right; right; right; split; vm_compute; discriminate|vm_compute; discriminate]. Qed.
Print Assumptions C54_supplementary_refuted.

Example C54_case : Forall xml_char (s " ") /\ xml_string [104; 0; 65535; 8364; 128512] = [104; 32; 32; 8364; 32].
Proof. split; [constructor; [right; right; right; left; split; vm_compute; discriminate|constructor]|reflexivity]. Qed.
