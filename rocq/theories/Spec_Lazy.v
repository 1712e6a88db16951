(** What the calls on a MsgpackDocument should answer: the parts of the fully decoded document. *)
From Verif Require Import PyBase Model_Heap Model_Layer Model_Types Model_Msgpack Model_Document Model_Codec Model_Lazy.
Local Open Scope Z_scope.

Definition among (keys : list pystr) (x : pystr) : bool := existsb (str_eqb x) keys.
(** the properties whose key is wanted; all when no key is given *)
Definition project (keys : list pystr) (o : mobj) : mobj :=
  match keys, o with
  | [], _ => o
  | _, MMap d => MMap (filter (fun kv => among keys (fst kv)) d)
  | _, _ => o
  end.
(** every name exists and every layer is named *)
Definition all_layers (sch : schema_t) (names : list pystr) : bool :=
  match names with [] => true | _ => forallb (among (map fst sch)) names && forallb (among names) (map fst sch) end.
(** [p] is what full decoding reads from [raw] *)
Definition full_answer (raw : list N) (p : pdoc) (h : heap) (c : mcall) : answer :=
  match c with
  | CProps ks => AProps (Ok (project ks (pd_props p)))
  | CSchema => ASchema (Ok (pd_schema p))
  | CTexts [] => ATexts (Ok (texts_obj (pd_texts p)))
  | CTexts _ => ATexts (Ok (MMap []))    (* sic *)
  | CDocument ls => ADocument (if all_layers (pd_schema p) ls then msgpack_decode h raw else (h, Err KeyError))
  | CBinary => ABinary raw
  end.
Definition after (h : heap) (a : answer) : heap := match a with ADocument r => fst r | _ => h end.
Fixpoint full_answers (raw : list N) (p : pdoc) (h : heap) (cs : list mcall) : list answer :=
  match cs with
  | [] => []
  | c :: r => let a := full_answer raw p h c in a :: full_answers raw p (after h a) r
  end.
