(** What the sweeps of algorithm.py are to compute. *)
From Verif Require Import PyBase Model_Heap Model_Layer Model_Document.
Local Open Scope Z_scope.

(** The positions of a span [a, b); an empty span stands for the position a. *)
Definition on (p : Z * Z) (q : Z) : Prop := fst p <= q < snd p \/ (fst p = snd p /\ q = fst p).
Definition shares (x y : Z * Z) : Prop := exists q, on x q /\ on y q.
(** all of x lies before all of y *)
Definition before (x y : Z * Z) : Prop := forall p q, on x p -> on y q -> p < q.
(** The dominant right rule: longer, or equally long and further right (for equal spans: later in the list). *)
Definition beats (i : nat) (x : Z * Z) (j : nat) (y : Z * Z) : Prop :=
  let lx := snd x - fst x in let ly := snd y - fst y in
  lx > ly \/ (lx = ly /\ (fst x > fst y \/ (fst x = fst y /\ (i > j)%nat))).

(** t stands at position p of raw *)
Definition occurs (raw t : pystr) (p : Z) : Prop := exists a b, raw = a ++ t ++ b /\ zlen a = p.
Definition first_at (raw : pystr) (pos : Z) (t : pystr) (p : Z) : Prop :=
  pos <= p /\ occurs raw t p /\ forall q, pos <= q < p -> ~ occurs raw t q.
(** no occurrence of u from pos on lies before p *)
Definition not_before (raw : pystr) (pos p : Z) (u : pystr) : Prop := forall q, occurs raw u q -> pos <= q -> p <= q.
(** Tokens aligned from left to right, each at its first occurrence after the one before; a token that does not occur
    any more stays empty, and so do tokens up to k places before one that occurs earlier than the first of them. *)
Inductive aligned (raw : pystr) (k : nat) : Z -> list pystr -> list (Z * Z) -> Prop :=
| al_nil pos : aligned raw k pos [] []
| al_miss pos t r out : (forall q, pos <= q -> ~ occurs raw t q) -> aligned raw k pos r out -> aligned raw k pos (t :: r) ((pos, pos) :: out)
| al_hit pos t r p out : first_at raw pos t p -> Forall (not_before raw pos p) (firstn k r) ->
    aligned raw k (p + zlen t) r out -> aligned raw k pos (t :: r) ((p, p + zlen t) :: out)
| al_skip pos t a u r p q out : first_at raw pos t p -> (length a < k)%nat -> Forall (not_before raw pos p) a ->
    first_at raw pos u q -> q < p -> aligned raw k (q + zlen u) r out ->
    aligned raw k pos (t :: a ++ u :: r) (repeat (pos, pos) (S (length a)) ++ (q, q + zlen u) :: out).
(** the part of the text that is searched: the window, and once more cut at [stop] *)
Definition searched (t : pystr) (start : Z) (stop : option Z) : pystr := py_slice (py_slice t (Some start) stop) None stop.
(** the window of the text: [window_lo, window_hi) *)
Definition window_lo (t : pystr) (start : Z) : Z := Z.min start (zlen t).
Definition window_hi (t : pystr) (start : Z) (stop : option Z) : Z := Z.max (window_lo t start) (slice_stop (zlen t) stop).

(** ** span_translate *)
Definition span_at (h : heap) (n : nid) (f : pystr) (p : Z * Z) : Prop := exists tn tt, dget (n_fieldsof h n) f = Some (VSpan tn tt (fst p) (snd p)).
Definition unmapped (h : heap) (f : pystr) (n : nid) : Prop := dget (n_fieldsof h n) f = None.
(** the mapping sends source position q to target position r *)
Definition image (h : heap) (ms : list nid) (tf sf : pystr) (q r : Z) : Prop :=
  exists m p t, In m ms /\ span_at h m sf p /\ span_at h m tf t /\ fst p <= q < snd p /\ r = fst t + (q - fst p).
Definition good_mapping (h : heap) (ms : list nid) (tf sf : pystr) : Prop :=
  NoDup ms /\ (forall m, In m ms -> exists p t, span_at h m sf p /\ span_at h m tf t /\ fst p < snd p) /\
  (forall m m' p p', In m ms -> In m' ms -> m <> m' -> span_at h m sf p -> span_at h m' sf p' -> snd p <= fst p' \/ snd p' <= fst p).
(** the node's source span is not empty, and its first and last character are mapped *)
Definition mapped_ends (h : heap) (ms : list nid) (tf sf sf2 : pystr) (n : nid) : Prop :=
  exists a b u v, span_at h n sf2 (a, b) /\ a < b /\ image h ms tf sf a u /\ image h ms tf sf (b - 1) v.
(** the images of first and last character are in order and in the target text *)
Definition image_fits (h : heap) (ms : list nid) (tf sf sf2 txt : pystr) (n : nid) : Prop :=
  forall a b u v, span_at h n sf2 (a, b) -> a < b -> image h ms tf sf a u -> image h ms tf sf (b - 1) v -> 0 <= u <= v + 1 /\ v + 1 <= zlen txt.
(** h' is h, but each unmapped node of ns has got its target span *)
Definition translated (h h' : heap) (ms ns : list nid) (tf sf sf2 tf2 ctx txt : pystr) : Prop :=
  (forall n, In n ns -> unmapped h tf2 n -> exists a b u v, span_at h n sf2 (a, b) /\ image h ms tf sf a u /\ image h ms tf sf (b - 1) v /\
     h_node h' n = mkNode (n_fieldsof h n ++ [(tf2, VSpan ctx txt u (v + 1))]) (n_idof h n) (n_collof h n)) /\
  (forall n, ~ (In n ns /\ unmapped h tf2 n) -> h_node h' n = h_node h n) /\
  h_nnext h' = h_nnext h /\ h_layer h' = h_layer h /\ h_lnext h' = h_lnext h.
(** h' differs from h in fields of nodes of S only *)
Definition only (S : nid -> Prop) (h h' : heap) : Prop :=
  (forall n, ~ S n -> h_node h' n = h_node h n) /\ (forall n, n_idof h' n = n_idof h n /\ n_collof h' n = n_collof h n) /\
  h_nnext h' = h_nnext h /\ h_layer h' = h_layer h /\ h_lnext h' = h_lnext h.
(** the layers, fields, and text that span_translate needs *)
Definition is_span_field (h : heap) (l : lid) (f : pystr) : Prop := exists t, dget (l_fields (h_layer h l)) f = Some t /\ dt_name t = TSpan.
Definition translate_ready (h : heap) (d : doc) (mapping tf sf remap sf2 tf2 : pystr) (ml rl : lid) (ctx txt : pystr) : Prop :=
  dget (d_layers d) mapping = Some ml /\ dget (d_layers d) remap = Some rl /\
  (exists t, dget (l_fields (h_layer h ml)) tf = Some t /\ dt_name t = TSpan /\ dget (dt_opts t) (s "context") = Some (VStr ctx)) /\
  is_span_field h ml sf /\ is_span_field h rl sf2 /\ is_span_field h rl tf2 /\ dget (d_texts d) ctx = Some txt.
(** mapping nodes ms, remapped layer ns: no gaps, no node in both, ids distinct, and source spans where needed *)
Definition translate_nodes (h : heap) (ml rl : lid) (tf sf sf2 tf2 : pystr) (ms ns : list nid) : Prop :=
  layer_iter h ml = map Some ms /\ layer_iter h rl = map Some ns /\ good_mapping h ms tf sf /\ (forall m, In m ms -> ~ In m ns) /\
  NoDup (map (n_idof h) ns) /\ (forall n, In n ns -> unmapped h tf2 n -> exists p, span_at h n sf2 p).

(** ** group_by_span *)
From Coq Require Import Sorting.Sorted Sorting.Permutation.
(** the span field used for a layer *)
Definition field_for (lsf : option (dict pystr)) (layer f : pystr) : Prop :=
  match lsf with None => f = s "text" | Some d => dget d layer = Some f end.
(** absent, or a span that does not end before it starts *)
Definition span_or_absent (h : heap) (f : pystr) (n : nid) : Prop := dget (n_fieldsof h n) f = None \/ exists p, span_at h n f p /\ fst p <= snd p.
Definition group_input (h : heap) (gs : list nid) (layers : dict (list nid)) (f : pystr) (lsf : option (dict pystr)) : Prop :=
  NoDup gs /\ (forall g, In g gs -> span_or_absent h f g) /\ NoDup (dkeys layers) /\
  forall layer ns, In (layer, ns) layers -> NoDup ns /\ exists lf, field_for lsf layer lf /\ forall n, In n ns -> span_or_absent h lf n.
(** o is the content of group g: each layer with exactly its nodes that stand in relation [keep] to the group, each once *)
Definition group_content (h : heap) (layers : dict (list nid)) (f : pystr) (lsf : option (dict pystr)) (keep : Z * Z -> Z * Z -> Prop) (g : nid) (o : dict (list nid)) : Prop :=
  dkeys o = dkeys layers /\ forall layer ns lf, In (layer, ns) layers -> field_for lsf layer lf ->
    exists l, dget o layer = Some l /\ NoDup l /\ forall n, In n l <-> In n ns /\ exists p q, span_at h g f p /\ span_at h n lf q /\ keep p q.
(** the groups in order of their start, with their contents *)
Definition grouped (h : heap) (gs : list nid) (layers : dict (list nid)) (f : pystr) (lsf : option (dict pystr)) (keep : Z * Z -> Z * Z -> Prop)
  (gl : list (nid * dict (list nid))) : Prop :=
  NoDup (map fst gl) /\ (forall g, In g (map fst gl) <-> In g gs /\ exists p, span_at h g f p) /\
  StronglySorted (fun a b => forall p q, span_at h a f p -> span_at h b f q -> fst p <= fst q) (map fst gl) /\
  forall g o, In (g, o) gl -> group_content h layers f lsf keep g o.
Definition inside (p q : Z * Z) : Prop := fst p <= fst q /\ snd q <= snd p.
(** an order of iteration may be any permutation *)
Definition any_order {X} (ord : nat -> list X -> list X) : Prop := forall k l, Permutation (ord k l) l.
