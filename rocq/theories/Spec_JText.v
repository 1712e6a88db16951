(** What the texts of the Java port should do: a text keeps one offset object per position it knows, and
    encoding cuts it at the positions of the spans in use. *)
From Verif Require Import PyBase Model_Text Model_JText.
Local Open Scope Z_scope.

(** the object the text itself would hand out for the position of [o] *)
Definition entered (t : jtext) (o : nat) : Prop := In (o_pos (jt_obj t o), o) (jt_map t).
Definition current (t : jtext) (s : jspan) : Prop := entered t (fst s) /\ entered t (snd s).

(** the map agrees with the objects; a text without characters has no numbers to tell apart *)
Definition jt_wf (t : jtext) : Prop :=
  NoDup (map fst (jt_map t)) /\
  (forall p o, In (p, o) (jt_map t) -> (o < jt_next t)%nat /\ o_pos (jt_obj t o) = p) /\
  (jt_text t = [] -> forall o, o_num (jt_obj t o) = 0).
(** all positions lie in the text *)
Definition in_range (t : jtext) : Prop := forall p o, In (p, o) (jt_map t) -> 0 <= p <= zlen (jt_text t).
Definition jt_ok (t : jtext) : Prop := jt_wf t /\ in_range t.

(** the objects and positions a list of spans uses *)
Definition used (spans : list jspan) : list nat := flat_map (fun s => [fst s; snd s]) spans.
Definition cut_at (t : jtext) (spans : list jspan) : list Z := map (fun o => o_pos (jt_obj t o)) (used spans).

(** number [i] names the position: the parts before it are the text before it *)
Definition names (parts : list (list N)) (i p : Z) (text : list N) : Prop :=
  0 <= i <= zlen parts /\ List.concat (firstn (Z.to_nat i) parts) = firstn (Z.to_nat p) text.

(** the objects of the spans that the text still knows, and their positions *)
Definition knows (t : jtext) (o : nat) : bool :=
  existsb (fun e => (fst e =? o_pos (jt_obj t o)) && Nat.eqb (snd e) o) (jt_map t).
Definition known_cuts (t : jtext) (spans : list jspan) : list Z :=
  map (fun o => o_pos (jt_obj t o)) (filter (knows t) (used spans)).
(** the parts of a text cut at some positions: none of them empty, except for the empty text *)
Definition cut_text (text : list N) (cuts : list Z) : list (list N) :=
  match text with [] => [[]] | _ => text_compile text (sorted_offsets text cuts) end.

(** A use of a text: spans are asked for, given up (the node holding them leaves its document), and the
    document is encoded with the spans still held. *)
Inductive jtop := Make (a b : Z) | Drop (k : nat) | Save.
Inductive jtans := Made (r : res (Z * Z)) | Dropped | Saved (r : res (list (list N) * list (Z * Z))).
Definition without {A} (k : nat) (l : list A) : list A := firstn k l ++ skipn (Datatypes.S k) l.
Fixpoint jt_run (t : jtext) (held : list jspan) (ops : list jtop) : list jtans :=
  match ops with
  | [] => []
  | Make a b :: r =>
      match jt_span t a b with
      | (t1, Ok s) => Made (Ok (js_start t1 s, js_stop t1 s)) :: jt_run t1 (held ++ [s]) r
      | (t1, Err e) => Made (Err e) :: jt_run t1 held r
      end
  | Drop k :: r => Dropped :: jt_run t (without k held) r
  | Save :: r =>
      match jt_prepare t held with
      | (t1, Ok parts) => Saved (Ok (parts, map (js_ids t1) held)) :: jt_run t1 held r
      | (t1, Err e) => Saved (Err e) :: jt_run t1 held r
      end
  end.
(** the same with pairs of positions in the place of spans; the number of a position is the number of cuts
    before it *)
Definition rank (cuts : list Z) (p : Z) : Z := zlen (filter (fun q => q <? p) cuts).
Definition ends (ranges : list (Z * Z)) : list Z := flat_map (fun s => [fst s; snd s]) ranges.
Fixpoint range_run (text : list N) (held : list (Z * Z)) (ops : list jtop) : list jtans :=
  match ops with
  | [] => []
  | Make a b :: r =>
      if (0 <=? a) && (a <? zlen text) && (a <=? b) && (b <=? zlen text)
      then Made (Ok (a, b)) :: range_run text (held ++ [(a, b)]) r
      else Made (Err ValueError) :: range_run text held r
  | Drop k :: r => Dropped :: range_run text (without k held) r
  | Save :: r =>
      let cuts := sorted_offsets text (ends held) in
      Saved (Ok (cut_text text (ends held), map (fun s => (rank cuts (fst s), rank cuts (snd s))) held))
      :: range_run text held r
  end.
