(** Characters of XML 1.0 (W3C, production 2). *)
From Verif Require Import PyBase.
From Verif Require Export Model_XmlString.
Local Open Scope N_scope.
Definition xml_char (c : N) : Prop := c = 9 \/ c = 10 \/ c = 13 \/ 32 <= c <= 55295 \/ 57344 <= c <= 65533 \/ 65536 <= c <= 1114111.
