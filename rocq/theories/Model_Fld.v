(** Fields as attributes, small helpers, and typed binary data (model.py 46-60, 98-120, 828-842; algorithm.py 24-39; codec.py 504-520). *)
From Verif Require Import PyBase Model_Heap Model_Layer Model_Types Model_Msgpack Model_Document Model_Coerce Model_Codec.
Local Open Scope Z_scope.

(** node.fld is an object with one attribute of its own, __data__, the node (model.py 46-48, 110-112).
    [attr] tells which other names Python finds on every object of a class (__class__, __doc__, ...); these are found before __getattr__ is asked. *)
Inductive found := FValue (v : value) | FData (n : nid) | FObject.
Section Members.
Context (attr : pystr -> bool).
(** model.py 50-51; dict.get *)
Definition fld_get (h : heap) (w : nid) (f : pystr) : found :=
  if str_eqb f (s "__data__") then FData w
  else if attr f then FObject
  else FValue (match dget (n_fieldsof h w) f with Some v => v | None => VNone end).
(** model.py 53-57, the wrapper's node after it; [v] is a node when it goes into __data__ (anything else there breaks the wrapper) *)
Definition fld_set (h : heap) (w : nid) (f : pystr) (v : value) : hres nid :=
  if str_eqb f (s "__data__") then match v with VNode m => (h, Ok m) | _ => (h, Err Unmodelled) end
  else (set_fields h w (dset (n_fieldsof h w) f v), Ok w).
(** model.py 59-60 *)
Definition fld_del (h : heap) (w : nid) (f : pystr) : hres unit :=
  if dmem (n_fieldsof h w) f then (set_fields h w (ddel (n_fieldsof h w) f), Ok tt) else (h, Err KeyError).
End Members.

(** model.py 118-120 *)
Definition is_dangling (h : heap) (n : nid) : bool := match n_collof h n with None => true | Some _ => false end.
(** algorithm.py 24-29 *)
Definition get_prop (f : pystr) (default : value) (h : heap) (n : nid) : value :=
  if dmem (n_fieldsof h n) f then match dget (n_fieldsof h n) f with Some v => v | None => default end else default.
(** algorithm.py 32-39; a function may raise *)
Fixpoint chain {A} (fns : list (A -> res A)) (x : A) : res A :=
  match fns with [] => Ok x | f :: r => let* y := f x in chain r y end.

(** model.py 831-839: ExtData.encode; the data is any value *)
Definition ext_encode (h : heap) (data : value) : res (list N) := match data with VBytes b => Ok b | _ => py_bytes h data end.
(** codec.py 504-520: the data of an embedded document is bytes or a Document *)
Inductive edata := EBytes (b : list N) | EDoc (d : doc).
(** codec.py 509-513 *)
Definition embed_encode (h : heap) (x : edata) : hres (list N) := match x with EBytes b => (h, Ok b) | EDoc d => msgpack_encode h d false true end.
(** codec.py 515-520; the data afterwards *)
Definition embed_decode (h : heap) (x : edata) : heap * edata * res doc :=
  match x with
  | EDoc d => (h, x, Ok d)
  | EBytes b => match msgpack_decode h b with (h1, Ok d) => (h1, EDoc d, Ok d) | (h1, Err e) => (h1, x, Err e) end
  end.
