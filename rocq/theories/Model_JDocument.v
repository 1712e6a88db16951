(** A document that is not decoded (java/core/src/main/java/se/lth/cs/docria/MsgpackDocument.java 12-151).
    Simplification: a negative size, which would move the unpacker back, is not modelled. *)
From Verif Require Import PyBase Model_Layer Model_Types Model_Msgpack Model_Codec Model_JStream Model_JCodec.
Local Open Scope Z_scope.

(** MsgpackDocument.java 13-28; the positions are null until they are asked for *)
Record mdoc := mkMD { md_data : list N; md_pos : option (list Z); md_schema : option (dict (dict jdtype)) }.
(** MsgpackDocument.java 30-38: the constructor from bytes; Arrays.copyOf adds zeros *)
Definition md_open (data : list N) : res mdoc :=
  if list_eqb N.eqb (firstn 4 (data ++ repeat 0%N 4)) magic then Ok (mkMD data None None) else Err IOError.
(** MsgpackDocument.java 40-52: the constructor from four compartments *)
Definition md_of (p sc t l : list N) : mdoc := mkMD (p ++ sc ++ t ++ l) None None.
(** MsgpackDocument.java 54-60: parsePropertyCompartment *)
Definition md_parse_props (p : list N) : res (dict jv) := let* (ps, _) := jread_props p in Ok ps.
(** MsgpackDocument.java 62-68: parseSchemaCompartment *)
Definition md_parse_schema (sc : list N) : res (dict (dict jdtype)) := let* (x, _) := jread_schema sc in Ok x.
(** a size and as many bytes, MsgpackDocument.java 84-85, 99-100, 105-106 *)
Definition md_section (bs : list N) : res (list N) :=
  let* (n, r) := mu_int bs in
  if n <? 0 then Err Unmodelled else
  let* (_, r1) := mu_payload n r in Ok r1.
(** an array of eight ints, MsgpackDocument.java 80 *)
Definition md_eight (l : list Z) : option (list Z) := Some (l ++ repeat 0 (8 - length l)).
(** MsgpackDocument.java 77-107: what is known when it ends, or when an exception ends it *)
Definition md_read (data : list N) : option (list Z) * option (dict (dict jdtype)) * res unit :=
  let at_ r := zlen data - zlen r in
  match mu_payload 4 data with
  | Err e => (None, None, Err e)
  | Ok (_, r0) =>
  match md_section r0 with
  | Err e => (md_eight [at_ r0], None, Err e)
  | Ok r1 =>
  match jread_schema r1 with
  | Err e => (md_eight [at_ r0; at_ r1; at_ r1], None, Err e)
  | Ok (sch, r2) =>
  match md_section r2 with
  | Err e => (md_eight [at_ r0; at_ r1; at_ r1; at_ r2; at_ r2], Some sch, Err e)
  | Ok r3 =>
  match md_section r3 with
  | Err e => (md_eight [at_ r0; at_ r1; at_ r1; at_ r2; at_ r2; at_ r3; at_ r3], Some sch, Err e)
  | Ok r4 => (md_eight [at_ r0; at_ r1; at_ r1; at_ r2; at_ r2; at_ r3; at_ r3; at_ r4], Some sch, Ok tt)
  end end end end end.
(** MsgpackDocument.java 74-112: determineCompartments *)
Definition md_determine (m : mdoc) : mdoc * res unit :=
  match md_pos m with
  | Some _ => (m, Ok tt)
  | None => match md_read (md_data m) with
            | (p, sch, r) => (mkMD (md_data m) p (match sch with Some x => Some x | None => md_schema m end), r)
            end
  end.
(** Arrays.copyOfRange, MsgpackDocument.java 126, 131, 136, 141 *)
Definition copy_range (data : list N) (a b : Z) : res (list N) :=
  if b <? a then Err ValueError
  else if (a <? 0) || (zlen data <? a) then Err IndexError
  else Ok (firstn (Z.to_nat (b - a)) (skipn (Z.to_nat a) data ++ repeat 0%N (Z.to_nat (b - a)))).
(** MsgpackDocument.java 16-26: which of the positions *)
Inductive compartment := CProps | CSchema | CTexts | CLayers.
(** MsgpackDocument.java 16-26 *)
Definition md_start (c : compartment) : nat := match c with CProps => 0 | CSchema => 2 | CTexts => 4 | CLayers => 6 end.
(** MsgpackDocument.java 116-117, 126, 131, 136, 141: positions[i]; the array is there after determineCompartments, unless that raised *)
Definition md_at (m : mdoc) (i : nat) : res Z := match md_pos m with None => Err AttributeError | Some l => Ok (nth i l 0) end.
(** MsgpackDocument.java 124-142: propertyCompartment, schemaCompartment, layersCompartment, textCompartment *)
Definition md_compartment (c : compartment) (m : mdoc) : mdoc * res (list N) :=
  match md_determine m with
  | (m1, Err e) => (m1, Err e)
  | (m1, Ok _) => (m1, let* a := md_at m1 (md_start c) in let* b := md_at m1 (md_start c + 1) in copy_range (md_data m1) a b)
  end.
(** MsgpackDocument.java 114-122: properties.  The third argument of newDefaultUnpacker is a length, but gets a position; the library
    does not check that it is inside the array: [beyond] is what would be found behind it. *)
Definition md_properties (beyond : list N) (m : mdoc) : mdoc * res (dict jv) :=
  match md_determine m with
  | (m1, Err e) => (m1, Err e)
  | (m1, Ok _) => (m1, let* a := md_at m1 0 in let* b := md_at m1 1 in
                       md_parse_props (firstn (Z.to_nat b) (skipn (Z.to_nat a) (md_data m1 ++ beyond))))
  end.
(** MsgpackDocument.java 148-150: document *)
Definition md_document (m : mdoc) : res jdoc := java_decode (md_data m).
