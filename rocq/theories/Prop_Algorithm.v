(** Span sweeps: span_translate (C45), group_by_span (C46, C47), dominant_right (C48), sequence_to_textspans (C49). *)
From Verif Require Import PyBase Model_Heap Model_Layer Model_Text Model_Types Model_Document Model_Algorithm Spec_Layer Spec_Algorithm
  Proof_Algorithm Proof_Algorithm2 Proof_Algorithm3 Proof_Algorithm4 Proof_Algorithm5.
From Coq Require Import Sorting.Sorted Sorting.Permutation.
Local Open Scope Z_scope.

(** C45: every node still to be mapped gets the span from the image of its first character to just after the image of its
    last one; nothing else changes. *)
Theorem C45_maps : forall h d mapping tf sf remap sf2 tf2 ml rl ctx txt ms ns,
  translate_ready h d mapping tf sf remap sf2 tf2 ml rl ctx txt -> translate_nodes h ml rl tf sf sf2 tf2 ms ns ->
  (forall n, In n ns -> unmapped h tf2 n -> image_fits h ms tf sf sf2 txt n) ->
  (forall n, In n ns -> unmapped h tf2 n -> mapped_ends h ms tf sf sf2 n) ->
  exists h', span_translate h d mapping tf sf remap sf2 tf2 = (h', Ok tt) /\ translated h h' ms ns tf sf sf2 tf2 ctx txt.
Proof. exact translate_maps. Qed.
Print Assumptions C45_maps.
(** a first or last character outside every interval raises *)
Theorem C45_raises : forall h d mapping tf sf remap sf2 tf2 ml rl ctx txt ms ns,
  translate_ready h d mapping tf sf remap sf2 tf2 ml rl ctx txt -> translate_nodes h ml rl tf sf sf2 tf2 ms ns ->
  (forall n, In n ns -> unmapped h tf2 n -> image_fits h ms tf sf sf2 txt n) ->
  forall n, In n ns -> unmapped h tf2 n -> ~ mapped_ends h ms tf sf sf2 n ->
  exists h', span_translate h d mapping tf sf remap sf2 tf2 = (h', Err AssertionError).
Proof. exact translate_raises. Qed.
Print Assumptions C45_raises.
(** whatever the outcome: only fields of nodes of the remapped layer without a target span are written *)
Theorem C45_untouched : forall h d mapping tf sf remap sf2 tf2 h' r, span_translate h d mapping tf sf remap sf2 tf2 = (h', r) ->
  only (fun n => unmapped h tf2 n /\ exists rl, dget (d_layers d) remap = Some rl /\ In (Some n) (layer_iter h rl)) h h'.
Proof. exact translate_only. Qed.
Print Assumptions C45_untouched.
(** overlapping mapping intervals are never accepted *)
Theorem C45_overlap : forall h d mapping tf sf remap sf2 tf2 ml rl ctx txt ms ns m m' p p',
  translate_ready h d mapping tf sf remap sf2 tf2 ml rl ctx txt -> layer_iter h ml = map Some ms -> layer_iter h rl = map Some ns ->
  NoDup ms -> NoDup ns -> (forall x, In x ms -> exists q, span_at h x sf q /\ fst q < snd q) -> (forall n, In n ns -> unmapped h tf2 n -> exists q, span_at h n sf2 q) ->
  In m ms -> In m' ms -> m <> m' -> span_at h m sf p -> span_at h m' sf p' -> fst p < snd p' -> fst p' < snd p ->
  snd (span_translate h d mapping tf sf remap sf2 tf2) <> Ok tt.
Proof. exact translate_overlap. Qed.
Print Assumptions C45_overlap.
(** Text "abcdef" in the source, "xxabcydefz" in the target; nodes 0 and 1 map [0,3) to [2,5) and [3,6) to [6,9);
    node 2 covers [1,5), node 3 is mapped already, node 4 covers [5,6). *)
Definition sp (ctx txt : String.string) (a b : Z) : value := VSpan (s ctx) (s txt) a b.
Definition src_sp := sp "src" "abcdef".
Definition trg_sp := sp "trg" "xxabcydefz".
Definition tr_heap : heap := mkHeap (fun n => match n with
  | 0 => mkNode [(s "s", src_sp 0 3); (s "t", trg_sp 2 5)] 0 (Some 0)
  | 1 => mkNode [(s "s", src_sp 3 6); (s "t", trg_sp 6 9)] 1 (Some 0)
  | 2 => mkNode [(s "p", src_sp 1 5)] 0 (Some 1)
  | 3 => mkNode [(s "p", src_sp 0 1); (s "q", trg_sp 9 10)] 1 (Some 1)
  | 4 => mkNode [(s "p", src_sp 5 6)] 2 (Some 1)
  | _ => mkNode [] 0%Z None end)%nat 5%nat
  (fun l => match l with
   | O => mkLayer (s "map") [(s "s", T_span (s "src")); (s "t", T_span (s "trg"))] [Some 0; Some 1]%nat 2 []
   | _ => mkLayer (s "tok") [(s "p", T_span (s "src")); (s "q", T_span (s "trg"))] [Some 2; Some 3; Some 4]%nat 3 [] end) 2%nat.

Definition tr_doc : doc := mkDoc (d_props empty_doc) [(s "src", s "abcdef"); (s "trg", s "xxabcydefz")] [(s "map", 0%nat); (s "tok", 1%nat)].
Lemma sample_span h n f v p : dget (n_fieldsof h n) f = Some v -> (exists tn tt, v = VSpan tn tt (fst p) (snd p)) -> span_at h n f p.
Proof. intros E (tn & tt & ->). exists tn, tt. exact E. Qed.
Ltac spans := match goal with |- span_at _ _ _ _ => eapply sample_span; [reflexivity|unfold src_sp, trg_sp, sp; eexists _, _; reflexivity] end.
Lemma tr_ready : translate_ready tr_heap tr_doc (s "map") (s "t") (s "s") (s "tok") (s "p") (s "q") 0%nat 1%nat (s "trg") (s "xxabcydefz").
Proof. repeat split; try reflexivity; eexists; repeat split; reflexivity. Qed.
Ltac at_span H := destruct H as (?tn & ?tt & H); vm_compute in H; try discriminate H; injection H as; subst.
Lemma tr_nodes : translate_nodes tr_heap 0%nat 1%nat (s "t") (s "s") (s "p") (s "q") [0; 1]%nat [2; 3; 4]%nat.
Proof.
  split; [reflexivity|]. split; [reflexivity|]. split; [|split; [|split]].
  - split; [repeat constructor; simpl; intuition discriminate|]. split.
    + intros m [<-|[<-|[]]]; [exists (0, 3), (2, 5)|exists (3, 6), (6, 9)]; (split; [spans|split; [spans|reflexivity]]).
    + intros m m' [a b] [a' b'] [<-|[<-|[]]] [<-|[<-|[]]] N H H'; try congruence; at_span H; at_span H'; cbn [fst snd] in *; lia.
  - intros m [<-|[<-|[]]]; simpl; intuition discriminate.
  - vm_compute. repeat constructor; simpl; intuition discriminate.
  - intros n [<-|[<-|[<-|[]]]] U; [exists (1, 5); spans|discriminate U|exists (5, 6); spans].
Qed.
Example C45_case : translate_ready tr_heap tr_doc (s "map") (s "t") (s "s") (s "tok") (s "p") (s "q") 0%nat 1%nat (s "trg") (s "xxabcydefz") /\
  translate_nodes tr_heap 0%nat 1%nat (s "t") (s "s") (s "p") (s "q") [0; 1]%nat [2; 3; 4]%nat /\
  (forall n, In n [2; 3; 4]%nat -> unmapped tr_heap (s "q") n -> image_fits tr_heap [0; 1]%nat (s "t") (s "s") (s "p") (s "xxabcydefz") n) /\
  (forall n, In n [2; 3; 4]%nat -> unmapped tr_heap (s "q") n -> mapped_ends tr_heap [0; 1]%nat (s "t") (s "s") (s "p") n) /\
  match span_translate tr_heap tr_doc (s "map") (s "t") (s "s") (s "tok") (s "p") (s "q") with
  | (h', Ok tt) => map (fun n => dget (n_fieldsof h' n) (s "q")) [2; 3; 4]%nat = [Some (trg_sp 3 8); Some (trg_sp 9 10); Some (trg_sp 8 9)]
  | _ => False
  end.
Proof.
  split; [exact tr_ready|]. split; [exact tr_nodes|]. split; [|split; [|vm_compute; reflexivity]].
  - intros n I U a b u v Hp Lt (m & p1 & t1 & Im & H1 & H2 & C1 & ->) (m' & p2 & t2 & Im' & H3 & H4 & C2 & ->).
    destruct p1, t1, p2, t2. destruct Im as [<-|[<-|[]]]; at_span H1; at_span H2; (destruct Im' as [<-|[<-|[]]]; at_span H3; at_span H4);
      (destruct I as [<-|[<-|[<-|[]]]]; at_span Hp; try discriminate U; cbn [fst snd] in *; change (zlen (s "xxabcydefz")) with 10; lia).
  - intros n [<-|[<-|[<-|[]]]] U; [|discriminate U|].
    + exists 1, 5, 3, 7. split; [spans|]. split; [reflexivity|]. split.
      * exists 0%nat, (0, 3), (2, 5). split; [left; reflexivity|]. split; [spans|]. split; [spans|]. cbn [fst snd]. lia.
      * exists 1%nat, (3, 6), (6, 9). split; [right; left; reflexivity|]. split; [spans|]. split; [spans|]. cbn [fst snd]. lia.
    + exists 5, 6, 8, 8. split; [spans|]. split; [reflexivity|]. split; (exists 1%nat, (3, 6), (6, 9); split; [right; left; reflexivity|]; split; [spans|]; split; [spans|]; cbn [fst snd]; lia).
Qed.
(** with only the first mapping node, node 2 ends outside *)
Definition tr_gap : heap := mkHeap (h_node tr_heap) 5%nat (fun l => match l with O => mkLayer (s "map") (l_fields (h_layer tr_heap 0%nat)) [Some 0%nat] 1 [] | _ => h_layer tr_heap 1%nat end) 2%nat.
Example C45_gap : snd (span_translate tr_gap tr_doc (s "map") (s "t") (s "s") (s "tok") (s "p") (s "q")) = Err AssertionError.
Proof. vm_compute. reflexivity. Qed.

(** C46: each group with its intersecting nodes, in whatever order the sets are iterated over. *)
Theorem C46_intersect_partial : forall og on, any_order og -> any_order on -> forall h gs layers f lsf, group_input h gs layers f lsf ->
  exists gl, group_by_span og on h gs layers (s "intersect") f lsf true = Ok gl /\ grouped h gs layers f lsf shares gl.
Proof. exact group_intersect. Qed.
Print Assumptions C46_intersect_partial.
(** Missing: nodes whose span field holds None.  The docstring (algorithm.py 299-301) has them ignored; they raise. *)
Definition none_heap : heap := mkHeap (fun n => match n with
  | O => mkNode [(s "text", src_sp 0 3)] 0 (Some 0%nat) | _ => mkNode [(s "text", VNone)] 1 (Some 0%nat) end) 2%nat (h_layer empty_heap) 1%nat.
Theorem C46_none_refuted : exists h gs layers f, NoDup gs /\ NoDup (dkeys layers) /\
  (forall layer ns n, In (layer, ns) layers -> In n ns -> dget (n_fieldsof h n) (s "text") = Some VNone) /\
  forall og on, group_by_span og on h gs layers (s "intersect") f None true = Err AttributeError.
Proof.
  exists none_heap, [0%nat], [(s "l", [1%nat])], (s "text"). split; [repeat constructor; simpl; tauto|]. split; [repeat constructor; simpl; tauto|].
  split; [|reflexivity]. intros layer ns n [E|[]] I. injection E as <- <-. destruct I as [<-|[]]. reflexivity.
Qed.
Print Assumptions C46_none_refuted.
(** C47: cover keeps the nodes inside the group; a node that is not empty and lies inside intersects. *)
Theorem C47_cover : forall og on, any_order og -> any_order on -> forall h gs layers f lsf, group_input h gs layers f lsf ->
  exists gl, group_by_span og on h gs layers (s "cover") f lsf true = Ok gl /\ grouped h gs layers f lsf (fun p q => shares p q /\ inside p q) gl.
Proof. exact group_cover. Qed.
Print Assumptions C47_cover.
Theorem C47_inside : forall p q, fst q < snd q -> inside p q -> shares p q.
Proof. exact inside_shares. Qed.
Print Assumptions C47_inside.
Theorem C47_empty : forall og on h gs layers res f lsf, match group_by_span og on h gs layers res f lsf true with
  | Ok full => exists keep, group_by_span og on h gs layers res f lsf false = Ok (filter keep full) /\
      forall g o, keep (g, o) = true <-> exists layer l, In (layer, l) o /\ l <> []
  | Err e => group_by_span og on h gs layers res f lsf false = Err e
  end.
Proof. exact group_empty. Qed.
Print Assumptions C47_empty.
(** Groups 0 [0,4), 1 [3,9), 2 [20,22), 3 without span; layer a: 4 [2,5), 5 [4,6), 6 [3,3) ; layer b: 7 [0,4), 8 [9,9), 9 without span. *)
Definition gr_span (n : nat) : option (Z * Z) := match n with
  | 0%nat => Some (0, 4) | 1%nat => Some (3, 9) | 2%nat => Some (20, 22) | 4%nat => Some (2, 5) | 5%nat => Some (4, 6) | 6%nat => Some (3, 3) | 7%nat => Some (0, 4) | 8%nat => Some (9, 9) | _ => None end.
Definition gr_heap : heap := mkHeap (fun n => mkNode (match gr_span n with Some (a, b) => [(s "text", VSpan (s "main") [] a b)] | None => [] end) (Z.of_nat n) None) 10%nat (h_layer empty_heap) 0%nat.
Definition gr_layers : dict (list nid) := [(s "a", [4; 5; 6]%nat); (s "b", [7; 8; 9]%nat)].
Definition plain {X} (k : nat) (l : list X) : list X := l.
Definition last_first {X} (k : nat) (l : list X) : list X := rev l.
Lemma plain_any X : any_order (@plain X). Proof. intros k l. apply Permutation_refl. Qed.
Lemma last_first_any X : any_order (@last_first X). Proof. intros k l. symmetry. apply Permutation_rev. Qed.
Lemma gr_input : group_input gr_heap [0; 1; 2; 3]%nat gr_layers (s "text") None.
Proof.
  assert (S1 : forall n, In n [0; 1; 2; 3; 4; 5; 6; 7; 8; 9]%nat -> span_or_absent gr_heap (s "text") n).
  { intros n I. unfold span_or_absent, span_at. change (n_fieldsof gr_heap n) with (match gr_span n with Some (a, b) => [(s "text", VSpan (s "main") [] a b)] | None => [] end).
    destruct (gr_span n) as [[a b]|] eqn:E; [right; exists (a, b); split; [exists (s "main"), []; reflexivity|]|left; reflexivity].
    cbn [fst snd]. repeat (destruct I as [<-|I]; [cbn [gr_span] in E; first [discriminate E|injection E as <- <-; lia]|]); destruct I. }
  split; [repeat constructor; simpl; intuition discriminate|]. split; [intros g I; apply S1; simpl in *; tauto|]. split; [repeat constructor; simpl; intuition discriminate|].
  intros layer ns I. assert (Sub : NoDup ns /\ forall n, In n ns -> In n [0; 1; 2; 3; 4; 5; 6; 7; 8; 9]%nat).
  { destruct I as [E|[E|[]]]; injection E as <- <-; (split; [repeat constructor; simpl; intuition discriminate|simpl; tauto]). }
  split; [apply Sub|]. exists (s "text"). split; [reflexivity|]. intros n In_. apply S1, Sub, In_.
Qed.
Example C46_case : group_input gr_heap [0; 1; 2; 3]%nat gr_layers (s "text") None /\ any_order (@plain nid) /\ any_order (@last_first (pystr * nid)) /\
  group_by_span plain last_first gr_heap [0; 1; 2; 3]%nat gr_layers (s "intersect") (s "text") None true =
    Ok [(0, [(s "a", [4; 6]); (s "b", [7])]); (1, [(s "a", [4; 6; 5]); (s "b", [7])]); (2, [(s "a", []); (s "b", [])])]%nat.
Proof. split; [exact gr_input|]. split; [apply plain_any|]. split; [apply last_first_any|vm_compute; reflexivity]. Qed.
Example C47_case : 
  group_by_span plain plain gr_heap [0; 1; 2; 3]%nat gr_layers (s "cover") (s "text") None false =
    Ok [(0, [(s "a", [6]); (s "b", [7])]); (1, [(s "a", [6; 5]); (s "b", [])])]%nat.
Proof. vm_compute. reflexivity. Qed.

(** C48: returned segments are members in order of position without overlap; each other one is beaten by one that it
    overlaps; one that beats all that it overlaps is returned. *)
Theorem C48_dominant : forall A (segs : list (seg A)), (forall x, In x segs -> sg_start x <= sg_stop x) -> exists l,
  dominant_right segs = map (fun p => sg_item (snd p)) l /\
  (forall i x, In (i, x) l -> nth_error segs i = Some x) /\
  StronglySorted (fun a b => before (fst (snd a)) (fst (snd b))) l /\
  (forall j y, nth_error segs j = Some y -> In (j, y) l \/ exists i x, nth_error segs i = Some x /\ shares (fst x) (fst y) /\ beats i (fst x) j (fst y)) /\
  (forall j y, nth_error segs j = Some y -> (forall i x, nth_error segs i = Some x -> i <> j -> shares (fst x) (fst y) -> beats j (fst y) i (fst x)) -> In (j, y) l).
Proof. exact @dominant_right_ok. Qed.
Print Assumptions C48_dominant.
(** dominant_right_span: the same over the nodes that have the field *)
Theorem C48_nodes : forall h ns f, (forall n, In n ns -> dget (n_fieldsof h n) f = None \/ exists p, span_at h n f p) -> exists segs,
  (forall p n, In (p, n) segs -> In n ns /\ span_at h n f p) /\ map snd segs = filter (fun n => dmem (n_fieldsof h n) f) ns /\ dominant_right_span h ns f = Ok (dominant_right segs).
Proof. exact dominant_nodes. Qed.
Print Assumptions C48_nodes.
(** The result need not be maximal: [0,10) overlaps nothing that is returned. *)
Definition chain : list (seg nat) := [(0, 10, 0%nat); (5, 20, 1%nat); (18, 40, 2%nat)].
Example C48_case : (forall x, In x chain -> sg_start x <= sg_stop x) /\ dominant_right chain = [2%nat] /\
  dominant_right [(0, 4, 0%nat); (2, 6, 1%nat); (6, 6, 2%nat); (6, 7, 3%nat)] = [1; 3]%nat.
Proof. split; [|split; vm_compute; reflexivity]. intros x I. repeat (destruct I as [<-|I]; [vm_compute; discriminate|]). destruct I. Qed.
Theorem C48_not_maximal : exists (segs : list (seg nat)) x, (forall y, In y segs -> sg_start y <= sg_stop y) /\ In x segs /\ ~ In (sg_item x) (dominant_right segs) /\
  forall y, In y segs -> In (sg_item y) (dominant_right segs) -> ~ shares (fst x) (fst y).
Proof.
  exists chain, (0, 10, 0%nat). split; [apply C48_case|]. split; [left; reflexivity|]. change (dominant_right chain) with [2%nat]. split; [simpl; lia|].
  intros y [<-|[<-|[<-|[]]]]; simpl; try lia. intros _ (q & Q). unfold on in Q. simpl in Q. lia.
Qed.
Print Assumptions C48_not_maximal.

(** C49: one span per token, in order, without overlap, in the window, each empty or equal to its token. *)
Theorem C49_safe_partial : forall toks t start stop k, 0 <= start -> exists out, sequence_to_textspans toks t start stop k = Ok out /\
  Forall2 (fun tok x => sp_text x = t /\ window_lo t start <= sp_start x /\ sp_start x <= sp_stop x /\ sp_stop x <= window_hi t start stop /\
    (sp_start x = sp_stop x \/ span_str x = tok)) toks out /\
  StronglySorted (fun x y => sp_stop x <= sp_start y) out.
Proof. exact sequence_safe. Qed.
Print Assumptions C49_safe_partial.
(** exactly which alignment that is *)
Theorem C49_exact_partial : forall toks t start stop k, 0 <= start ->
  exists out, sequence_to_textspans toks t start stop k = Ok (map (fun p => mkSpan t (Z.min (start + fst p) (zlen t)) (Z.min (start + snd p) (zlen t))) out) /\
    aligned (searched t start stop) (Z.to_nat k) 0 toks out.
Proof. exact sequence_exact. Qed.
Print Assumptions C49_exact_partial.
Theorem C49_window : forall t start stop, 0 <= start -> match stop with Some e => 0 <= e | None => True end -> searched t start stop = py_slice t (Some start) stop.
Proof. exact searched_window. Qed.
Print Assumptions C49_window.
(** Missing: a negative start, counted from the end; a token that reaches the end of the text raises. *)
Theorem C49_start_refuted : exists toks t start, start < 0 /\ sequence_to_textspans toks t start None 1 = Err DataValidationError.
Proof. exists [s "world"], (s "hello world"), (-5). split; [reflexivity|vm_compute; reflexivity]. Qed.
Print Assumptions C49_start_refuted.
(** A negative stop is applied twice: the window is "abc", but only "a" is searched. *)
Theorem C49_stop_twice : exists t stop, py_slice t (Some 0) (Some stop) = s "abc" /\ searched t 0 (Some stop) = s "a" /\
  sequence_to_textspans [s "c"] t 0 (Some stop) 1 = Ok [mkSpan t 0 0].
Proof. exists (s "abcde"), (-2). repeat split; vm_compute; reflexivity. Qed.
Print Assumptions C49_stop_twice.
Example C49_case : sequence_to_textspans [s "the"; s "cat"; s "dog"; s "sat"] (s "the dog sat on a cat") 0 None 1 =
  Ok (map (fun p => mkSpan (s "the dog sat on a cat") (fst p) (snd p)) [(0, 3); (3, 3); (4, 7); (8, 11)]).
Proof. vm_compute. reflexivity. Qed.
