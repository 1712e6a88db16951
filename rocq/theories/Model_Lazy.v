(** MsgpackDocument (codec.py 350-501): access to parts of an encoded document by position.
    Streams are the bytes of a BytesIO; an Unpacker made after seek(p) reads the bytes from p on, and
    tell() counts the bytes it has consumed.  A negative position makes seek raise. *)
From Verif Require Import PyBase Model_Text Model_Heap Model_Layer Model_Types Model_Msgpack Model_Document Model_Codec.
Local Open Scope Z_scope.

(** ** projections *)
(** msgpack: Unpacker.read_map_header (codec.py 669-686, 719-735) *)
Definition read_map_header (bs : list N) : res (Z * list N) :=
  match bs with
  | [] => Err StopIteration
  | b :: r => match classify b with
              | TgMap n => Ok (n, r)
              | TgMapN k => read_uint k r
              | _ => Err ValueError
              end
  end.
(** codec.py 676-683 and 726-733: the entries whose key is wanted *)
Fixpoint pick_entries (n : nat) (keys : list pystr) (acc : dict mobj) (bs : list N) : res (dict mobj) :=
  match n with
  | O => Ok acc
  | S n' => let* (k, r) := unpack1 bs in
            let* x := as_str k in
            if existsb (str_eqb x) keys
            then let* (v, r') := unpack1 r in pick_entries n' keys (dset acc x v) r'
            else let* (_, r') := skip1 r in pick_entries n' keys acc r'
  end.
(** codec.py 669-686: decode_property *)
Definition decode_property (bs : list N) (keys : list pystr) : res mobj :=
  match keys with
  | [] => let* (o, _) := unpack1 bs in Ok o
  | _ => let* (n, r) := read_map_header bs in
         let* d := pick_entries (Z.to_nat n) keys [] r in Ok (MMap d)
  end.
(** codec.py 719-735: decode_texts; with names, the parameter [texts] is rebound to an empty dict before
    the set of names is made of it, so no name is wanted *)
Definition decode_texts (bs : list N) (names : list pystr) : res mobj :=
  match names with
  | [] => let* (o, _) := unpack1 bs in Ok o
  | _ => let* (n, r) := read_map_header bs in
         let* d := pick_entries (Z.to_nat n) [] [] r in Ok (MMap d)
  end.

(** ** the object *)
(** codec.py 371-395 *)
Definition schema_t := list (pystr * dict dtype).
(** codec.py 371-395 *)
Record mdoc := mkMD { md_raw : list N; md_ref : option (Z * Z); md_prop : option (Z * Z); md_schema : option schema_t;
                      md_texts : option (Z * Z); md_layers : option (dict (Z * Z)) }.
(** codec.py 411-447 *)
Definition seek (raw : list N) (p : Z) : res (list N) := if p <? 0 then Err ValueError else Ok (skipn (Z.to_nat p) raw).
(** codec.py 371-395 *)
Definition md_open (raw : list N) (ref : option (Z * Z)) : res mdoc :=
  if list_eqb N.eqb (firstn 4 raw) magic then Ok (mkMD raw ref None None None None) else Err ValueError.
(** codec.py 397-410: __getstate__ keeps the reference, __setstate__ does not restore it *)
Definition md_pickle (m : mdoc) : res mdoc := md_open (md_raw m) None.
(** codec.py 412-419 *)
Definition find_props (raw : list N) : res (Z * Z) :=
  let* bs := seek raw 4 in
  let* (o, r) := unpack1 bs in
  let* sz := as_num o in
  Ok (zlen bs - zlen r + 4, sz).
(** codec.py 421-431 *)
Definition find_texts (raw : list N) (start_pos : Z) : res (schema_t * (Z * Z)) :=
  let* bs := seek raw start_pos in
  let* (sch, r) := decode_schema bs in
  let* (o, r') := unpack1 r in
  let* n := as_num o in
  Ok (sch, (zlen bs - zlen r' + start_pos, n)).
(** codec.py 433-447 *)
Fixpoint find_layers (raw : list N) (start_pos : Z) (names : list pystr) : res (dict (Z * Z)) :=
  match names with
  | [] => Ok []
  | x :: rest =>
      let* bs := seek raw start_pos in
      let* (o, r) := unpack1 bs in
      let* n := as_num o in
      let layer_start := zlen bs - zlen r + start_pos in
      let* q := find_layers raw (layer_start + n) rest in
      Ok ((x, (layer_start, n)) :: q)
  end.
(** codec.py 411-447: _parse_state.  _read_state is never changed, so every call parses again. *)
Definition parse_state (m : mdoc) (state : nat) : mdoc * res unit :=
  if (state <? 1)%nat then (m, Ok tt) else
  match find_props (md_raw m) with
  | Err e => (m, Err e)
  | Ok pr =>
      let m1 := mkMD (md_raw m) (md_ref m) (Some pr) (md_schema m) (md_texts m) (md_layers m) in
      if (state <? 2)%nat then (m1, Ok tt) else
      match find_texts (md_raw m) (fst pr + snd pr) with
      | Err e => (m1, Err e)
      | Ok (sch, tx) =>
          let m2 := mkMD (md_raw m) (md_ref m) (Some pr) (Some sch) (Some tx) (md_layers m) in
          if (state <? 3)%nat then (m2, Ok tt) else
          match find_layers (md_raw m) (fst tx + snd tx) (map fst sch) with
          | Err e => (m2, Err e)
          | Ok ls => (mkMD (md_raw m) (md_ref m) (Some pr) (Some sch) (Some tx) (Some ls), Ok tt)
          end
      end
  end.
Definition got {A} (o : option A) : res A := match o with Some x => Ok x | None => Err TypeError end.
(** codec.py 453-458 *)
Definition md_properties (m : mdoc) (keys : list pystr) : mdoc * res mobj :=
  let (m1, r) := parse_state m 1 in
  (m1, let* _ := r in let* p := got (md_prop m1) in let* bs := seek (md_raw m1) (fst p) in decode_property bs keys).
(** codec.py 460-463 *)
Definition md_getschema (m : mdoc) : mdoc * res schema_t :=
  let (m1, r) := parse_state m 2 in (m1, let* _ := r in got (md_schema m1)).
(** codec.py 465-470 *)
Definition md_gettexts (m : mdoc) (names : list pystr) : mdoc * res mobj :=
  let (m1, r) := parse_state m 2 in
  (m1, let* _ := r in let* p := got (md_texts m1) in let* bs := seek (md_raw m1) (fst p) in decode_texts bs names).
(** codec.py 491-498: the layers asked for, read at their positions *)
Definition md_layer (raw : list N) (sch : schema_t) (ls : dict (Z * Z)) (x : pystr) : res (pystr * (Z * list (list mobj))) :=
  let* p := dgetE ls x in
  let* bs := seek raw (fst p) in
  let* fs := dgetE sch x in
  let* (nc, _) := read_layer fs bs in Ok (x, nc).
(** codec.py 472-501: document; commit_layers looks up every layer of the schema among those read *)
Definition md_parse (m : mdoc) (layers : list pystr) : mdoc * res pdoc :=
  let (m1, r1) := parse_state m 3 in
  let (m2, r2) := md_properties m1 [] in
  let (m3, r3) := md_getschema m2 in
  let (m4, r4) := md_gettexts m3 [] in
  match r1, r2, r3, r4 with
  | Err e, _, _, _ => (m1, Err e)
  | Ok _, Err e, _, _ => (m2, Err e)
  | Ok _, Ok _, Err e, _ => (m3, Err e)
  | Ok _, Ok _, Ok _, Err e => (m4, Err e)
  | Ok _, Ok props, Ok sch, Ok tx =>
      (m4, let* texts := as_texts tx in
           let* ls := got (md_layers m4) in
           let* read := mapM (md_layer (md_raw m4) sch ls) (match layers with [] => map fst sch | _ => layers end) in
           let* data := mapM (fun kf => dgetE (rev read) (fst kf)) sch in
           Ok (mkPD props sch texts data))
  end.
Definition md_document (h : heap) (m : mdoc) (layers : list pystr) : mdoc * hres doc :=
  let (m1, r) := md_parse m layers in
  (m1, match r with Err e => (h, Err e) | Ok p => build h p end).

(** ** sequences of calls *)
(** calls of codec.py 449-501 *)
Inductive mcall := CProps (keys : list pystr) | CSchema | CTexts (names : list pystr) | CDocument (layers : list pystr) | CBinary.
(** calls of codec.py 449-501 *)
Inductive answer := AProps (r : res mobj) | ASchema (r : res schema_t) | ATexts (r : res mobj) | ADocument (r : hres doc) | ABinary (b : list N).
(** calls of codec.py 449-501 *)
Definition call (h : heap) (m : mdoc) (c : mcall) : heap * mdoc * answer :=
  match c with
  | CProps ks => let (m1, r) := md_properties m ks in (h, m1, AProps r)
  | CSchema => let (m1, r) := md_getschema m in (h, m1, ASchema r)
  | CTexts ns => let (m1, r) := md_gettexts m ns in (h, m1, ATexts r)
  | CDocument ls => let (m1, r) := md_document h m ls in (fst r, m1, ADocument r)
  | CBinary => (h, m, ABinary (md_raw m))
  end.
(** calls of codec.py 449-501 *)
Fixpoint calls (h : heap) (m : mdoc) (cs : list mcall) : list answer :=
  match cs with
  | [] => []
  | c :: r => let '(h1, m1, a) := call h m c in a :: calls h1 m1 r
  end.
