(** Sweeps over spans (py/docria/algorithm.py 197-522): span_translate, group_by_span, dominant_right,
    dominant_right_span, sequence_to_textspans.  [is_covered_by] (280-287) is in Model_Text.v. *)
From Verif Require Import PyBase Model_Heap Model_Layer Model_Text Model_Types Model_Document.
Local Open Scope Z_scope.

(** node[f].start, node[f].stop: KeyError without the field, AttributeError if it holds no span (algorithm.py 197-278, 290-412, 454-464) *)
Definition node_span (h : heap) (n : nid) (f : pystr) : res (Z * Z) :=
  let* v := dgetE (n_fieldsof h n) f in match v with VSpan _ _ a b => Ok (a, b) | _ => Err AttributeError end.

Section Dominant.
Context {A : Type}.
(** 415-451: a segment is a tuple (start, stop, item).  Tuples are told apart by identity (447): here by their
    place in the list, so the list is taken to hold no tuple object twice. *)
Definition seg := (Z * Z * A)%type.
Definition sg_start (x : seg) : Z := fst (fst x).
Definition sg_stop (x : seg) : Z := snd (fst x).
Definition sg_item (x : seg) : A := snd x.
(** 423-430 *)
Fixpoint dr_events (i : nat) (l : list seg) : list ((Z * Z) * (nat * seg)) :=
  match l with
  | [] => []
  | x :: r => ((sg_start x, 0), (i, x)) ::
              (if negb (sg_start x =? sg_stop x) then ((sg_stop x - 1, 1), (i, x)) else ((sg_stop x, 1), (i, x))) ::
              dr_events (S i) r
  end.
(** 434-449: [open] is open_node *)
Fixpoint dr_loop (open : option (nat * seg)) (es : list ((Z * Z) * (nat * seg))) : list A :=
  match es with
  | [] => []
  | ((_, mode), (i, x)) :: r =>
      if mode =? 0 then
        match open with
        | Some (o, y) => if sg_stop y - sg_start y <=? sg_stop x - sg_start x then dr_loop (Some (i, x)) r else dr_loop open r
        | None => dr_loop (Some (i, x)) r
        end
      else
        match open with
        | Some (o, y) => if Nat.eqb o i then sg_item x :: dr_loop None r else dr_loop open r
        | None => dr_loop open r
        end
  end.
Definition dominant_right (l : list seg) : list A := dr_loop None (ssort fst lex_leb (dr_events 0 l)).
End Dominant.
Arguments seg : clear implicits.

(** 454-464: nodes without the field are left out *)
Fixpoint span_segments (h : heap) (f : pystr) (ns : list nid) : res (list (seg nid)) :=
  match ns with
  | [] => Ok []
  | n :: r => if dmem (n_fieldsof h n) f then
                let* p := node_span h n f in let* q := span_segments h f r in Ok ((fst p, snd p, n) :: q)
              else span_segments h f r
  end.
Definition dominant_right_span (h : heap) (ns : list nid) (f : pystr) : res (list nid) :=
  let* l := span_segments h f ns in Ok (dominant_right l).

(** str.find(needle, start, stop) (CPython ADJUST_INDICES: stop is clamped like a slice bound, a start beyond the end
    finds nothing); the start is not negative here (algorithm.py 491, 499) *)
Fixpoint find_go (t needle : pystr) (tries : nat) (i : Z) : Z :=
  match tries with
  | O => -1
  | S k => if str_eqb (sub t i (i + zlen needle)) needle then i else find_go t needle k (i + 1)
  end.
(** algorithm.py 491, 499 *)
Definition str_find (t needle : pystr) (start : Z) (stop : option Z) : Z :=
  find_go t needle (Z.to_nat (slice_stop (zlen t) stop - zlen needle - start + 1)) start.
(** 498-500: the first of the next tokens found before [location]: (how many tokens before it, where, the token) *)
Fixpoint closer (raw : pystr) (stop : option Z) (pos location : Z) (j : nat) (ahead : list pystr) : option (nat * Z * pystr) :=
  match ahead with
  | [] => None
  | u :: r => let c := str_find raw u pos stop in
              if negb (c =? -1) && (c <? location) then Some (j, c, u) else closer raw stop pos location (S j) r
  end.
(** 502-503: [n] empty spans at [at] *)
Fixpoint empties (t : pystr) (at_ : Z) (n : nat) : res (list span) :=
  match n with
  | O => Ok []
  | S k => let* x := text_slice t (Some at_) (Some at_) in let* r := empties t at_ k in Ok (x :: r)
  end.
(** 490-520; range(1, min(k+1, len(token_sequence)-i)) runs over the next k tokens, as far as there are *)
Fixpoint seq_loop (fuel : nat) (t raw : pystr) (start : Z) (stop : option Z) (k : Z) (toks : list pystr) (pos : Z) : res (list span) :=
  match toks with
  | [] => Ok []
  | tok :: rest =>
      match fuel with
      | O => Err OutOfFuel
      | S f =>
          let location := str_find raw tok pos stop in
          if location =? -1 then
            let* x := text_slice t (Some (start + pos)) (Some (start + pos)) in
            let* out := seq_loop f t raw start stop k rest pos in Ok (x :: out)
          else match closer raw stop pos location 1 (firstn (Z.to_nat k) rest) with
          | Some (j, c, u) =>
              let* xs := empties t (start + pos) j in
              let* x := text_slice t (Some (start + c)) (Some (start + c + zlen u)) in
              let* out := seq_loop f t raw start stop k (skipn j rest) (c + zlen u) in Ok (xs ++ x :: out)
          | None =>
              let* x := text_slice t (Some (start + location)) (Some (start + location + zlen tok)) in
              let* out := seq_loop f t raw start stop k rest (location + zlen tok) in Ok (x :: out)
          end
      end
  end.
(** 467-522 *)
Definition sequence_to_textspans (toks : list pystr) (t : pystr) (start : Z) (stop : option Z) (k : Z) : res (list span) :=
  let raw := py_slice t (Some start) stop in seq_loop (length toks) t raw start stop k toks 0.

(** ** span_translate (197-277) *)
(** 215-220: layer.schema.fields[f] is a span *)
Definition span_field (h : heap) (l : lid) (f : pystr) : res dtype :=
  let* t := dgetE (l_fields (h_layer h l)) f in if tname_eqb (dt_name t) TSpan then Ok t else Err AssertionError.
(** 214-222: the two layers, the name of the target text and its string *)
Definition st_setup (h : heap) (d : doc) (mapping tf sf remap sf2 tf2 : pystr) : res (lid * lid * pystr * pystr) :=
  let* ml := dgetE (d_layers d) mapping in
  let* t := span_field h ml tf in
  let* _ := span_field h ml sf in
  let* rl := dgetE (d_layers d) remap in
  let* _ := span_field h rl sf2 in
  let* _ := span_field h rl tf2 in
  let* c := opt_name t (s "context") in
  let* x := dgetE (d_texts d) c in
  Ok (ml, rl, c, x).
Definition st_event := ((Z * Z) * (Z * nid))%type.
(** 228-233 *)
Fixpoint map_events (h : heap) (sf : pystr) (ns : list (option nid)) : res (list st_event) :=
  match ns with
  | [] => Ok []
  | None :: _ => Err TypeError
  | Some m :: r => let* p := node_span h m sf in let* q := map_events h sf r in
                   Ok (((fst p, 0), (0, m)) :: ((snd p, -1), (0, m)) :: q)
  end.
(** 235-241 *)
Fixpoint remap_events (h : heap) (sf2 tf2 : pystr) (ns : list (option nid)) : res (list st_event) :=
  match ns with
  | [] => Ok []
  | None :: _ => Err TypeError
  | Some n :: r =>
      if negb (dmem (n_fieldsof h n) tf2) then
        let* p := node_span h n sf2 in let* q := remap_events h sf2 tf2 r in
        Ok (((fst p, 1), (1, n)) :: ((snd p - 1, 2), (1, n)) :: q)
      else remap_events h sf2 tf2 r
  end.
(** remap_start_offsets, a dict keyed by node ids (algorithm.py 197-278) *)
Fixpoint zget (d : list (Z * Z)) (k : Z) : option Z :=
  match d with [] => None | (k', v) :: r => if k =? k' then Some v else zget r k end.
(** 250-277: [active] is (active_interval_start, active_interval_target_start), [offs] the last value stored under a key first *)
Fixpoint st_loop (h : heap) (tf tf2 ctx txt : pystr) (active : option (Z * Z)) (offs : list (Z * Z)) (es : list st_event) : hres unit :=
  match es with
  | [] => (h, Ok tt)
  | ((marker, markertype), (sourcetype, n)) :: r =>
      if sourcetype =? 0 then
        if markertype =? -1 then st_loop h tf tf2 ctx txt None offs r
        else match active with
        | Some _ => (h, Err AssertionError)
        | None => match node_span h n tf with
                  | Err e => (h, Err e)
                  | Ok p => st_loop h tf tf2 ctx txt (Some (marker, fst p)) offs r
                  end
        end
      else match active with
      | None => (h, Err AssertionError)
      | Some (a, ta) =>
          if markertype =? 1 then st_loop h tf tf2 ctx txt active ((n_idof h n, (marker - a) + ta) :: offs) r
          else match zget offs (n_idof h n) with
          | None => (h, Err AssertionError)
          | Some startOffset =>
              let stopOffset := (marker - a) + ta + 1 in
              match text_slice txt (Some startOffset) (Some stopOffset) with
              | Err e => (h, Err e)
              | Ok x => st_loop (set_fields h n (dset (n_fieldsof h n) tf2 (VSpan ctx txt (sp_start x) (sp_stop x)))) tf tf2 ctx txt active offs r
              end
          end
      end
  end.
Definition span_translate (h : heap) (d : doc) (mapping tf sf remap sf2 tf2 : pystr) : hres unit :=
  match (let* p := st_setup h d mapping tf sf remap sf2 tf2 in
         let '(ml, rl, c, x) := p in
         let* a := map_events h sf (layer_iter h ml) in
         let* b := remap_events h sf2 tf2 (layer_iter h rl) in
         Ok (c, x, a ++ b)) with
  | Err e => (h, Err e)
  | Ok (c, x, es) => st_loop h tf tf2 c x None [] (ssort fst lex_leb es)
  end.

(** ** group_by_span (290-412) *)
Section GroupBySpan.
(** Sets of nodes and of (layer, node) pairs are lists of their members; Python iterates over a set in an arbitrary order,
    which the two oracles choose anew at each step of the sweep. *)
Variables (order_groups : nat -> list nid -> list nid) (order_nodes : nat -> list (pystr * nid) -> list (pystr * nid)).
(** algorithm.py 366-393 *)
Definition pair_eqb (a b : pystr * nid) : bool := str_eqb (fst a) (fst b) && Nat.eqb (snd a) (snd b).
(** algorithm.py 366-393 *)
Definition set_add {X} (eqb : X -> X -> bool) (x : X) (l : list X) : list X := if existsb (eqb x) l then l else l ++ [x].
(** algorithm.py 366-393 *)
Definition set_remove {X} (eqb : X -> X -> bool) (x : X) (l : list X) : res (list X) :=
  if existsb (eqb x) l then Ok (filter (fun y => negb (eqb x y)) l) else Err KeyError.
(** algorithm.py 366-393 *)
Definition gb_event := ((Z * Z) * (option pystr * nid))%type.
(** 326-332, 344-350: two symbols for a span *)
Definition span_events (start stop : Z) (p : Z * Z) (x : option pystr * nid) : list gb_event :=
  if fst p =? snd p then [((fst p, 3), x); ((snd p, 4), x)] else [((fst p, start), x); ((snd p, stop), x)].
(** 322-332 and 340-350: all nodes of one kind; nodes without the field are left out *)
Fixpoint nodes_events (h : heap) (f : pystr) (start stop : Z) (layer : option pystr) (ns : list nid) : res (list gb_event) :=
  match ns with
  | [] => Ok []
  | n :: r =>
      if dmem (n_fieldsof h n) f then
        let* p := node_span h n f in let* q := nodes_events h f start stop layer r in Ok (span_events start stop p (layer, n) ++ q)
      else nodes_events h f start stop layer r
  end.
(** 316-317, 335-338: layer_span_field[layer]; without the argument the field is "text" for every layer *)
Definition span_name (lsf : option (dict pystr)) (layer : pystr) : res pystr :=
  match lsf with None => Ok (s "text") | Some d => dgetE d layer end.
(** 334-350 *)
Fixpoint layers_events (h : heap) (lsf : option (dict pystr)) (layers : dict (list nid)) : res (list gb_event) :=
  match layers with
  | [] => Ok []
  | (name, ns) :: r =>
      let* f := span_name lsf name in
      let* a := nodes_events h f 1 (-1) (Some name) ns in
      let* b := layers_events h lsf r in Ok (a ++ b)
  end.
(** 364-367: groups, group_list, open_nodes, open_groups; [gb_objs] are the group_dict objects, [gb_groups] the dict [groups] and [gb_list] group_list,
    both holding numbers of such objects *)
Record gb_state := mkGB { gb_nodes : list (pystr * nid); gb_opens : list nid; gb_groups : nid -> option nat;
                          gb_objs : nat -> dict (list nid); gb_list : list (nid * nat) }.
(** group_dict[layer].append(node) (algorithm.py 290-412) *)
Definition obj_append (o : dict (list nid)) (layer : pystr) (n : nid) : res (dict (list nid)) :=
  let* l := dgetE o layer in Ok (dset o layer (l ++ [n])).
(** 377-378 *)
Fixpoint append_all (groups : nid -> option nat) (layer : pystr) (n : nid) (gs : list nid) (objs : nat -> dict (list nid)) : res (nat -> dict (list nid)) :=
  match gs with
  | [] => Ok objs
  | g :: r => match groups g with
              | None => Err KeyError
              | Some i => let* o := obj_append (objs i) layer n in append_all groups layer n r (upd objs i o)
              end
  end.
(** 385-386 *)
Fixpoint fill (o : dict (list nid)) (xs : list (pystr * nid)) : res (dict (list nid)) :=
  match xs with [] => Ok o | (layer, n) :: r => let* o1 := obj_append o layer n in fill o1 r end.
(** 355-361, 370-395: one event.  current_group (356) is never assigned, so each event is handled by itself. *)
Definition gb_step (layers : dict (list nid)) (k : nat) (st : gb_state) (e : gb_event) : res gb_state :=
  let '((_, marker), (layer, n)) := e in
  if (0 <=? marker) && (marker <? 4) then
    match layer with
    | Some name =>
        let* objs := append_all (gb_groups st) name n (order_groups k (gb_opens st)) (gb_objs st) in
        Ok (mkGB (set_add pair_eqb (name, n) (gb_nodes st)) (gb_opens st) (gb_groups st) objs (gb_list st))
    | None =>
        let i := length (gb_list st) in
        let* o := fill (map (fun kv => (fst kv, [])) layers) (order_nodes k (gb_nodes st)) in
        Ok (mkGB (gb_nodes st) (set_add Nat.eqb n (gb_opens st)) (upd (gb_groups st) n (Some i)) (upd (gb_objs st) i o) (gb_list st ++ [(n, i)]))
    end
  else
    match layer with
    | Some name => let* r := set_remove pair_eqb (name, n) (gb_nodes st) in Ok (mkGB r (gb_opens st) (gb_groups st) (gb_objs st) (gb_list st))
    | None => let* r := set_remove Nat.eqb n (gb_opens st) in Ok (mkGB (gb_nodes st) r (gb_groups st) (gb_objs st) (gb_list st))
    end.
Fixpoint gb_loop (layers : dict (list nid)) (k : nat) (st : gb_state) (es : list gb_event) : res gb_state :=
  match es with [] => Ok st | e :: r => let* st1 := gb_step layers k st e in gb_loop layers (S k) st1 r end.
(** 319-395: the groups before resolution *)
Definition gb_sweep (h : heap) (gs : list nid) (layers : dict (list nid)) (f : pystr) (lsf : option (dict pystr)) : res (list (nid * dict (list nid))) :=
  let* a := nodes_events h f 0 (-2) None gs in
  let* b := layers_events h lsf layers in
  let* st := gb_loop layers 0 (mkGB [] [] (fun _ => None) (fun _ => []) []) (ssort fst lex_leb (a ++ b)) in
  Ok (map (fun gi => (fst gi, gb_objs st (snd gi))) (gb_list st)).
(** 398-405 *)
Fixpoint covered_nodes (h : heap) (lsf : option (dict pystr)) (layer : pystr) (gp : Z * Z) (ns : list nid) : res (list nid) :=
  match ns with
  | [] => Ok []
  | n :: r =>
      let* f := span_name lsf layer in
      let* p := node_span h n f in
      let* q := covered_nodes h lsf layer gp r in
      Ok (if is_covered_by (mkSpan [] (fst p) (snd p)) (mkSpan [] (fst gp) (snd gp)) then n :: q else q)
  end.
Definition resolve_cover (h : heap) (f : pystr) (lsf : option (dict pystr)) (g : nid * dict (list nid)) : res (nid * dict (list nid)) :=
  let* gp := node_span h (fst g) f in
  let* o := mapM (fun kv => let* l := covered_nodes h lsf (fst kv) gp (snd kv) in Ok (fst kv, l)) (snd g) in
  Ok (fst g, o).
(** 409: sum of the lengths *)
Definition group_size (g : nid * dict (list nid)) : Z := fold_right (fun kv k => zlen (snd kv) + k) 0 (snd g).
Definition group_by_span (h : heap) (gs : list nid) (layers : dict (list nid)) (resolution : pystr) (f : pystr)
  (lsf : option (dict pystr)) (include_empty_groups : bool) : res (list (nid * dict (list nid))) :=
  let* gl := gb_sweep h gs layers f lsf in
  let* gl1 := if str_eqb resolution (s "cover") then mapM (resolve_cover h f lsf) gl else Ok gl in
  Ok (if include_empty_groups then gl1 else filter (fun g => 0 <? group_size g) gl1).
End GroupBySpan.
