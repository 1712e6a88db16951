(** C114: nodes of the Java port whose class keeps fields of its own. *)
From Coq Require Import Sorted.
From Verif Require Import PyBase PyBaseFacts Model_Query Model_Heap Model_Layer Model_Types Model_JGroup Model_JCodec Model_JConcrete Spec_JConcrete Proof_JConcrete.

(** Fields have the values they were given, whatever the calls; one that was given none is as in the new object. *)
Theorem C114_values {O V} (i : iface O V) fits o l :
  sound i fits -> Forall (fitting i fits) l ->
  exists n, c_calls i (c_new o) l = (n, Ok tt) /\
    forall f x, given (fun k => In k (own_fields i)) f l x ->
      c_get i n f = match x with Some v => Ok (Some v) | None => c_get i (c_new o) f end.
Proof. exact (calls_values i fits o l). Qed.
Print Assumptions C114_values.

(** What a plain node has, such a node has too; and in fields that are not its own there is no difference. *)
Theorem C114_as_plain {O V} (i : iface O V) fits o l :
  sound i fits -> Forall (fitting i fits) l ->
  exists n, c_calls i (c_new o) l = (n, Ok tt) /\
    (forall f v, dget (p_calls l) f = Some v -> c_get i n f = Ok (Some v)) /\
    (forall f, ~ In f (own_fields i) -> c_get i n f = Ok (dget (p_calls l) f) /\ c_has i n f = dmem (p_calls l) f).
Proof. exact (calls_plain i fits o l). Qed.
Print Assumptions C114_as_plain.

(** All fields are visited once, with the values that get returns. *)
Theorem C114_visits {O V} (i : iface O V) fits o l :
  sound i fits -> Forall (fitting i fits) l ->
  exists n vs, c_calls i (c_new o) l = (n, Ok tt) /\ c_visit i n = (vs, Ok tt) /\ NoDup (map fst vs) /\
    forall f v, In (f, v) vs <-> c_has i n f = true /\ c_get i n f = Ok (Some v).
Proof. exact (calls_visits i fits o l). Qed.
Print Assumptions C114_visits.

(** What the class inherits knows the other fields only: get with a default, and remove. *)
Theorem C114_inherited {O V} (i : iface O V) fits o l :
  sound i fits -> Forall (fitting i fits) l ->
  exists n, c_calls i (c_new o) l = (n, Ok tt) /\
    (forall f d, c_get_or n f d = if dmem (i_get i) f then d else match dget (p_calls l) f with Some v => v | None => d end) /\
    (forall f g, c_get i (c_remove n f) g = if str_eqb g f && negb (dmem (i_get i) f) then Ok None else c_get i n g) /\
    (forall f, In f (own_fields i) -> c_remove n f = n).
Proof. exact (calls_inherited i fits o l). Qed.
Print Assumptions C114_inherited.

(** A call that raises ends the sequence, and what it has done stays. *)
Theorem C114_stops {O V} (i : iface O V) l n m n' c e r :
  c_calls i n l = (m, Ok tt) -> c_call i m c = (n', Err e) -> c_calls i n (l ++ c :: r) = (n', Err e).
Proof. exact (calls_stop i l n m n' c e r). Qed.
Print Assumptions C114_stops.

(** The builder makes one getter and one setter for each name, the last that was added, in the order of names. *)
Theorem C114_builder {O V} (l : list (pystr * (getter O V * setter O V))) :
  dkeys (i_set (build_iface l)) = dkeys (i_get (build_iface l)) /\ StronglySorted (fun x y => str_cmp x y = Lt) (own_fields (build_iface l)) /\
  forall f, match find (fun x => str_eqb f (fst x)) (rev l) with
            | Some x => dget (i_get (build_iface l)) f = Some (fst (snd x)) /\ dget (i_set (build_iface l)) f = Some (snd (snd x))
            | None => dget (i_get (build_iface l)) f = None /\ dget (i_set (build_iface l)) f = None
            end.
Proof. exact (built l). Qed.
Print Assumptions C114_builder.

(** A reference that is read into a field that is not the class's own ends as in a plain node ... *)
Theorem C114_reference {O V} (rep : V -> res V) (i : iface O V) n f c :
  dkeys (i_set i) = dkeys (i_get i) -> ~ In f (own_fields i) -> dget (c_data n) f = None ->
  match c with
  | None => read_reference rep i n f c = (n, Ok tt)
  | Some v => match rep v with
              | Ok w => exists n', read_reference rep i n f c = (n', Ok tt) /\ c_get i n' f = Ok (Some w) /\ c_own n' = c_own n
              | Err e => snd (read_reference rep i n f c) = Err e
              end
  end.
Proof. exact (reference_plain rep i n f c). Qed.
Print Assumptions C114_reference.

(** ... but a field of the class's own cannot hold one: either the setter takes references only, and refuses what
    is put first, or the field that no value was read for is read, and refused.  So no layer that has both nodes
    with and nodes without a reference is read. *)
Theorem C114_reference_refused {O V} (rep : V -> res V) (i : iface O V) n f st g null :
  dget (i_set i) f = Some st -> dget (i_get i) f = Some g ->
  (forall o v, snd (st o v) = Ok tt -> forall w, rep v <> Ok w) ->
  g (c_own n) = Ok null -> (forall w, rep null <> Ok w) ->
  (forall v w, rep v = Ok w -> snd (read_reference rep i n f (Some v)) <> Ok tt) /\
  snd (read_reference rep i n f None) <> Ok tt.
Proof. exact (reference_refused rep i n f st g null). Qed.
Print Assumptions C114_reference_refused.

(** ** A case: the class NamedEntity of java/core MainTest.java 60-110, and a class with a reference to a node *)
Definition entity : Type := option jv * option jv.
Definition ne_iface : iface entity (option jv) := build_iface
  [(s "text", (fun o => Ok (fst o), fun o v => match v with Some (JSpan c a b) => ((Some (JSpan c a b), snd o), Ok tt) | _ => (o, Err TypeError) end));
   (s "cls", (fun o => Ok (snd o), fun o v => match v with Some (JStr x) => ((fst o, Some (JStr x)), Ok tt) | _ => (o, Err TypeError) end))].
Definition ne_fits (f : pystr) (v : option jv) : Prop :=
  match v with Some (JSpan _ _ _) => f = s "text" | Some (JStr _) => f = s "cls" | _ => False end.
Example C114_case : sound ne_iface ne_fits /\
  let calls := [NPut (s "cls") (Some (JStr (s "GPE"))); NPut (s "x") (Some (JInt 1)); NData [(s "text", Some (JSpan (s "main") 0 4)); (s "y", Some (JInt 2))]] in
  Forall (fitting ne_iface ne_fits) calls /\
  c_calls ne_iface (c_new (None, None)) calls = (mkC (Some (JSpan (s "main") 0 4), Some (JStr (s "GPE"))) [(s "y", Some (JInt 2))], Ok tt).
Proof.
  split; [|split; [|vm_compute; reflexivity]].
  - unfold sound. split; [vm_compute; reflexivity|]. split; [|split].
    + vm_compute. repeat constructor; simpl; intuition discriminate.
    + intros f g o. vm_compute. repeat match goal with |- context [if ?b then _ else _] => destruct b end; intros E; inversion E; subst; eexists; reflexivity.
    + intros f st o v E F.
      assert (D : (f = s "cls" /\ exists x, v = Some (JStr x)) \/ (f = s "text" /\ exists c a b, v = Some (JSpan c a b))).
      { destruct v as [[]|]; simpl in F; try contradiction; subst f; [left|right]; split; eauto. }
      destruct D as [[-> [x ->]]|[-> [c [a [b ->]]]]]; vm_compute in E; inversion E; subst st; (eexists; split; [reflexivity|]); (split; [intros g G; vm_compute in G; inversion G; reflexivity|]);
        intros f' g N0 G; (assert (I : In f' [s "cls"; s "text"]) by (pose proof (in_map fst _ _ (dget_In _ _ G)) as I; exact I));
        destruct I as [<-|[<-|[]]]; first [now elim N0 | vm_compute in G; inversion G; reflexivity].
  - apply Forall_cons; [intros _; reflexivity|]. apply Forall_cons; [intros [H|[H|[]]]; vm_compute in H; discriminate H|]. apply Forall_cons; [|apply Forall_nil].
    split; [vm_compute; repeat constructor|]. intros f v [<-|[<-|[]]] E; vm_compute in E; inversion E; reflexivity.
Qed.

(** A plain node that all fields are set in loses those it is not given; a field that is removed is gone; get with a
    default returns what is there; a field that was never given is not there.  None of this holds of a field of the class's own. *)
Theorem C114_own_refuted :
  exists n : cnode entity (option jv), exists f v,
    c_calls ne_iface (c_new (None, None)) [NPut f v] = (n, Ok tt) /\
    (exists m, c_set ne_iface n [] = (m, Ok tt) /\ c_get ne_iface m f = Ok (Some v)) /\
    c_get ne_iface (c_remove n f) f = Ok (Some v) /\
    c_get_or n f None <> v /\
    c_has ne_iface (c_new (None, None)) f = true.
Proof.
  eexists. exists (s "cls"), (Some (JStr (s "GPE"))). split; [vm_compute; reflexivity|]. split; [eexists; split; vm_compute; reflexivity|].
  split; [vm_compute; reflexivity|]. split; [vm_compute; discriminate|vm_compute; reflexivity].
Qed.
Print Assumptions C114_own_refuted.

(** A setter that refuses leaves the fields before it set, and the others not. *)
Theorem C114_half_refuted :
  exists (n : cnode entity (option jv)) d m e, c_set ne_iface n d = (m, Err e) /\ c_get ne_iface m (s "cls") <> c_get ne_iface n (s "cls") /\ c_data m <> d.
Proof.
  exists (c_new (None, None)), [(s "cls", Some (JStr (s "GPE"))); (s "text", Some (JInt 1))]. eexists. eexists.
  split; [vm_compute; reflexivity|]. split; vm_compute; discriminate.
Qed.
Print Assumptions C114_half_refuted.

(** n -> n.head, (n, v) -> n.head = v.nodeValue() *)
Definition dep_iface : iface (option jv) (option jv) := build_iface
  [(s "head", (fun o => Ok o, fun o v => match v with Some (JNode x k) => (Some (JNode x k), Ok tt) | _ => (o, Err TypeError) end))].
Example C114_case_reference :
  let rep v := match v with Some (JInt k) => Ok (Some (JNode (s "token") (Z.to_nat k))) | _ => Err TypeError end in
  (forall st o v, dget (i_set dep_iface) (s "head") = Some st -> snd (st o v) = Ok tt -> forall w, rep v <> Ok w) /\
  (forall w, rep None <> Ok w) /\
  snd (read_reference rep dep_iface (c_new None) (s "head") (Some (Some (JInt 3)))) = Err TypeError /\
  snd (read_reference rep dep_iface (c_new None) (s "head") None) = Err TypeError /\
  read_reference rep dep_iface (c_new None) (s "other") (Some (Some (JInt 3))) = (mkC None [(s "other", Some (JNode (s "token") 3))], Ok tt).
Proof.
  split; [|split; [discriminate|repeat split; vm_compute; reflexivity]].
  intros st o v E. vm_compute in E. inversion E; subst st. destruct v as [[]|]; simpl; intros H; try discriminate H; discriminate.
Qed.
