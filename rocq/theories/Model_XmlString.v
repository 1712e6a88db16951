(** XmlCodec._string_encoder (py/docria/codec.py 890-894). *)
From Verif Require Import PyBase.
(** 890: the characters the pattern does not match.  An escape backslash-u takes four hex digits, so the last range of the pattern is read as
    U+1000, the range from the digit 0 to U+10FF, F, F. *)
Definition xml_keeps (c : N) : bool :=
  (N.eqb c 9 || N.eqb c 10 || N.eqb c 13 || ((32 <=? c) && (c <=? 55295)) || ((57344 <=? c) && (c <=? 65533)) ||
   N.eqb c 4096 || ((48 <=? c) && (c <=? 4351)) || N.eqb c 70)%N.
(** 892-894: re.sub with a replacement string without backslashes *)
Definition string_encoder (repl : pystr) (x : pystr) : pystr := flat_map (fun c => if xml_keeps c then [c] else repl) x.
Definition xml_string (x : pystr) : pystr := string_encoder (s " ") x.
