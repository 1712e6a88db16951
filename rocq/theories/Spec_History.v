(** Histories of layer operations, and the plain-list machine they are compared with. *)
From Verif Require Import PyBase Model_Heap Model_Layer Model_Types Spec_Layer.
Local Open Scope Z_scope.

Section History.
(** keys of sort: any type with a comparison *)
Context {K : Type} (leb : K -> K -> bool).

(** One call of the API (or one assignment to a node). *)
Inductive lop :=
| ONode (f : dict value)                                   (* Node with these fields *)
| OLayer (name : pystr) (fs : dict dtype)                  (* a new layer *)
| OAdd (l : lid) (kw : dict value)                         (* layer.add, keyword form *)
| OAddNodes (l : lid) (args : list (option nid))           (* layer.add, positional form *)
| OAddMany (l : lid) (one_shot : bool) (ns : list (option nid)) (default_fill full_validation : bool)
| ORemove (l : lid) (n : nid)                              (* layer.remove(node) *)
| ORemoveMany (l : lid) (is_list : bool) (items : list ritem)  (* layer.remove(iterable) *)
| ODetach (n : nid)                                        (* node.detach() *)
| ORetain (l : lid) (ns : list (option nid))
| OSort (l : lid) (keyfn : heap -> nid -> res K)
| OCompact (l : lid)
| OCompile (ls : list lid)                                 (* renumbering done by compile on these layers *)
| OSetField (n : nid) (k : pystr) (v : value)              (* node[k] = v *)
| ODelField (n : nid) (k : pystr)                          (* del node[k] *)
| OAddField (l : lid) (k : pystr) (d : dtype) (init : bool)
| ORemoveField (l : lid) (k : pystr) (leave : bool).

Definition done {A} (x : hres A) : heap * bool := (fst x, match snd x with Ok _ => true | Err _ => false end).
(** the new heap, and whether the call returned (instead of raising) *)
Definition exec (h : heap) (o : lop) : heap * bool :=
  match o with
  | ONode f => (fst (new_node h f), true)
  | OLayer name fs => (fst (alloc_layer h (new_layer name fs)), true)
  | OAdd l kw => done (layer_add_kw h l kw)
  | OAddNodes l args => done (layer_add_nodes h l args)
  | OAddMany l one ns df fv => done (layer_add_many h l one ns df fv)
  | ORemove l n => done (layer_remove h l n)
  | ORemoveMany l b items => done (layer_remove_many h l b items)
  | ODetach n => done (node_detach h n)
  | ORetain l ns => done (layer_retain h l ns)
  | OSort l keyfn => done (layer_sort leb (keyfn h) h l)
  | OCompact l => (compact h l, true)
  | OCompile ls => (fold_left layer_prepare ls h, true)
  | OSetField n k v => (set_fields h n (dset (n_fieldsof h n) k v), true)
  | ODelField n k => if dmem (n_fieldsof h n) k then (set_fields h n (ddel (n_fieldsof h n) k), true) else (h, false)
  | OAddField l k d init => done (layer_add_field h l k d init)
  | ORemoveField l k leave => done (layer_remove_field h l k leave)
  end.
(** a history without restrictions *)
Definition exec_all (h : heap) (os : list lop) : heap := fold_left (fun h o => fst (exec h o)) os h.

(** ** The plain-list machine: a list of nodes per layer, and how many nodes and layers exist *)
Record astate := mkA { a_list : lid -> list nid; a_nn : nat; a_ln : nat }.
Definition a_empty : astate := mkA (fun _ => []) 0 0.
Definition a_set (a : astate) (l : lid) (c : list nid) : astate := mkA (upd (a_list a) l c) (a_nn a) (a_ln a).
Definition a_bound (a : astate) (n : nid) : bool := existsb (fun l => mem_nid n (a_list a l)) (seq 0 (a_ln a)).
Fixpoint leading_nodes (args : list (option nid)) : list nid :=
  match args with Some n :: r => n :: leading_nodes r | _ => [] end.

(** [ok]: the call returned.  [h] is used only to evaluate the key function of sort. *)
Definition spec_step (h : heap) (a : astate) (o : lop) (ok : bool) : astate :=
  match o with
  | ONode _ => mkA (a_list a) (S (a_nn a)) (a_ln a)
  | OLayer _ _ => mkA (a_list a) (a_nn a) (S (a_ln a))
  | OAdd l _ => if ok then mkA (upd (a_list a) l (a_list a l ++ [a_nn a])) (S (a_nn a)) (a_ln a) else a
  | OAddNodes l args => a_set a l (a_list a l ++ leading_nodes args)
  | OAddMany l _ ns _ _ => a_set a l (a_list a l ++ fst (take_unbound (a_bound a) [] ns))
  | ORemove l n => a_set a l (without n (a_list a l))
  | ORemoveMany l _ items => a_set a l (fst (list_remove (a_list a l) items))
  | ODetach n => mkA (fun l => without n (a_list a l)) (a_nn a) (a_ln a)
  | ORetain l ns => a_set a l (list_retain (a_list a l) ns)
  | OSort l keyfn => a_set a l (list_sort leb (keyfn h) (a_list a l))
  | OCompact _ | OCompile _ | OSetField _ _ _ | ODelField _ _ | OAddField _ _ _ _ | ORemoveField _ _ _ => a
  end.
(** whether the call returns, where the lists alone decide it *)
Definition spec_ok (a : astate) (o : lop) : option bool :=
  match o with
  | OAddNodes _ args => Some (forallb (fun x => match x with Some _ => true | None => false end) args)
  | ORemove l n => Some (mem_nid n (a_list a l))
  | ORemoveMany l _ items => Some (snd (list_remove (a_list a l) items))
  | ODetach n => Some (a_bound a n)
  | ORetain _ _ | OCompact _ | OCompile _ => Some true
  | _ => None
  end.

(** ** Which calls the theorem is about: arguments are existing objects, and the two conditions the
    code itself needs (add only unbound nodes; retain only nodes of a layer without gaps). *)
Definition op_ok (h : heap) (o : lop) : Prop :=
  match o with
  | ONode f => NoDup (dkeys f)
  | OLayer _ fs => NoDup (dkeys fs)
  | OAdd l kw => (l < h_lnext h)%nat /\ NoDup (dkeys kw)
  | OAddNodes l args => (l < h_lnext h)%nat /\ Forall (fun n => (n < h_nnext h)%nat) (live args) /\
      NoDup (live args) /\ (forall n, In n (live args) -> n_collof h n = None)
  | OAddMany l _ ns _ _ => (l < h_lnext h)%nat /\ Forall (fun n => (n < h_nnext h)%nat) (live ns)
  | ORemove l _ | ORemoveMany l _ _ | OSort l _ | OCompact l | OAddField l _ _ _ | ORemoveField l _ _ => (l < h_lnext h)%nat
  | ORetain l ns => (l < h_lnext h)%nat /\ no_gaps h l /\ ~ In None ns /\ (forall n, In (Some n) ns -> n_collof h n = Some l)
  | OCompile ls => Forall (fun l => (l < h_lnext h)%nat) ls
  | ODetach _ | OSetField _ _ _ | ODelField _ _ => True
  end.

(** A history: the calls, run on the code and on the plain-list machine side by side. *)
Inductive hist : heap -> astate -> list lop -> heap -> astate -> Prop :=
| hist_nil h a : hist h a [] h a
| hist_cons h a o os h1 ok h2 a2 :
    op_ok h o -> exec h o = (h1, ok) -> hist h1 (spec_step h a o ok) os h2 a2 -> hist h a (o :: os) h2 a2.
(** A state that some history leads to. *)
Definition reachable (h : heap) : Prop := exists os a, hist empty_heap a_empty os h a.
End History.
