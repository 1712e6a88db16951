(** Strings of the Java port: UTF-16 units, and the UTF-8 that msgpack-java (org.msgpack:msgpack-core,
    java/core/pom.xml 33-36) writes for them.  The library is not part of the repository; taken as
    documented: packString encodes with the replacing CharsetEncoder (a lone surrogate becomes a question
    mark), unpackString decodes. *)
From Verif Require Import PyBase Model_Msgpack.
Local Open Scope N_scope.

(** java.lang.String of a sequence of code points (Text.java 30, MsgpackCodec.java 598) *)
Definition utf16_char (c : N) : list N :=
  if c <? 0x10000 then [c] else [0xD800 + (c - 0x10000) / 1024; 0xDC00 + (c - 0x10000) mod 1024].
(** java.lang.String of a sequence of code points (Text.java 30, MsgpackCodec.java 598) *)
Definition utf16 (x : pystr) : list N := flat_map utf16_char x.
(** high and low surrogates (MsgpackCodec.java 322-327, packString) *)
Definition is_high (u : N) : bool := (0xD800 <=? u) && (u <=? 0xDBFF).
(** high and low surrogates (MsgpackCodec.java 322-327, packString) *)
Definition is_low (u : N) : bool := (0xDC00 <=? u) && (u <=? 0xDFFF).
(** the code points packString (MsgpackCodec.java 322-327) writes for units *)
Fixpoint from_units (l : list N) : pystr :=
  match l with
  | [] => []
  | a :: r =>
      if is_high a then
        match r with
        | b :: r' => if is_low b then (0x10000 + (a - 0xD800) * 1024 + (b - 0xDC00)) :: from_units r'
                     else 63 :: from_units r
        | [] => [63]
        end
      else if is_low a then 63 :: from_units r
      else a :: from_units r
  end.
(** the bytes packString (MsgpackCodec.java 322-327) writes for units, without header *)
Definition java_utf8 (l : list N) : res (list N) := utf8_encode (from_units l).
(** unpackString (MsgpackCodec.java 598) of well-formed bytes; malformed ones are replaced by the library,
    here an error *)
Definition java_unutf8 (bs : list N) : res (list N) := let* x := utf8_decode bs in Ok (utf16 x).
