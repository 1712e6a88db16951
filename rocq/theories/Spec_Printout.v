(** What tables should show, said without the code. *)
From Verif Require Import PyBase.
From Verif Require Export Model_Printout.
From Coq Require Import QArith.
Local Open Scope Z_scope.

(** ** Options that calls of the setters with whole numbers (or None) can reach *)
Inductive whole : opt_call -> Prop :=
| whole_rows k : whole (SetRows (Some (inject_Z k)))
| whole_columns k : whole (SetColumns (Some (inject_Z k)))
| whole_width k : whole (SetWidth (Some (inject_Z k)))
| whole_display k : whole (SetDisplay (Some (inject_Z k)))
| none_rows : whole (SetRows None) | none_columns : whole (SetColumns None)
| none_width : whole (SetWidth None) | none_display : whole (SetDisplay None).
Inductive reached (ok : opt_call -> Prop) : options -> Prop :=
| reached_default : reached ok default_options
| reached_set o c o' : reached ok o -> ok c -> set_option o c = Ok o' -> reached ok o'.

(** ** Decimal numbers *)
Definition digit_value (acc : Z) (c : N) : Z := acc * 10 + (Z.of_N c - 48).
Definition decimal (x : pystr) : Z := fold_left digit_value x 0.
Definition is_digit (c : N) : Prop := (48 <= c <= 57)%N.

(** ** Text tables *)
(** what stands in a column: the text between its padding, filled up to the width *)
Definition slot (pad : nat) (w : Z) (x : pystr) : pystr :=
  repeat 32%N pad ++ x ++ repeat 32%N (Z.to_nat (w - zlen x)) ++ repeat 32%N pad.
(** the columns [cols] of a row *)
Definition line (pad : nat) (w : nat -> Z) (x : list pystr) (cols : list nat) : pystr :=
  flat_map (fun j => slot pad (w j) (nth j x [])) cols.
Definition width_of (pad : nat) (w : nat -> Z) (cols : list nat) : Z :=
  fold_right (fun j k => (w j + 2 * Z.of_nat pad) + k) 0 cols.
(** [x] in the middle of [w] characters, the larger half of the space to the right *)
Definition centered (w : Z) (x y : pystr) : Prop :=
  exists a b, y = repeat 32%N a ++ x ++ repeat 32%N b /\ (a <= b <= a + 1)%nat /\ (zlen x <= w -> zlen y = w) /\ (w <= zlen x -> y = x).
(** what a row of the table becomes: one line, or three lines for the gap *)
Inductive row_lines (pad : nat) (w : nat -> Z) (cols : list nat) : option (list pystr) -> list pystr -> Prop :=
| row_shown l : row_lines pad w cols (Some l) [line pad w l cols]
| row_gap y : centered (width_of pad w cols) (s "...") y -> row_lines pad w cols None [[]; y; []].
(** what a block of columns [g] becomes; [first], [last]: it is the first, the last block *)
Inductive block_lines (o : options) (t : table) (headers : list pystr) (rows : list (option (list pystr))) (w : nat -> Z)
  (first last : bool) (g : list nat) : list pystr -> Prop :=
| block_intro top hd body cols :
    cols = (if t_hide_index t then g else O :: g) ->
    (if first
     then match t_caption t with
          | None => top = []
          | Some c => exists x y, truncate o c = Ok x /\ centered (width_of (t_padding t) w cols) x y /\ top = [y; []]
          end
     else top = [[]; []]) ->
    hd = (if t_hide_header t then [] else [line (t_padding t) w headers cols ++ (if last then [] else s " \"); []]) ->
    Forall2 (row_lines (t_padding t) w cols) rows body ->
    block_lines o t headers rows w first last g (top ++ hd ++ List.concat body).
Inductive blocks_lines (o : options) (t : table) (headers : list pystr) (rows : list (option (list pystr))) (w : nat -> Z)
  : bool -> list (list nat) -> list pystr -> Prop :=
| blocks_none first : blocks_lines o t headers rows w first [] []
| blocks_more first g gs x y :
    block_lines o t headers rows w first (match gs with [] => true | _ => false end) g x ->
    blocks_lines o t headers rows w false gs y ->
    blocks_lines o t headers rows w first (g :: gs) (x ++ y).
(** [w] is the least width of column [j] that holds all entries shown in it *)
Definition least_width (t : table) (headers : list pystr) (rows : list (option (list pystr))) (j : nat) (w : Z) : Prop :=
  let shown x := (t_hide_header t = false /\ x = nth j headers []) \/ (exists l, In (Some l) rows /\ x = nth j l []) in
  (forall x, shown x -> zlen x <= w) /\ (w = 0 \/ exists x, shown x /\ zlen x = w).

(** ** HTML *)
Definition special (c : N) : bool := existsb (N.eqb c) [38%N; 60%N; 62%N; 34%N; 39%N].
(** the text that a piece of HTML without tags stands for *)
Inductive stands_for : pystr -> pystr -> Prop :=
| st_nil : stands_for [] []
| st_plain c x y : special c = false -> stands_for x y -> stands_for (c :: x) (c :: y)
| st_amp x y : stands_for x y -> stands_for (s "&amp;" ++ x) (38%N :: y)
| st_lt x y : stands_for x y -> stands_for (s "&lt;" ++ x) (60%N :: y)
| st_gt x y : stands_for x y -> stands_for (s "&gt;" ++ x) (62%N :: y)
| st_quot x y : stands_for x y -> stands_for (s "&quot;" ++ x) (34%N :: y)
| st_apos x y : stands_for x y -> stands_for (s "&#x27;" ++ x) (39%N :: y).
(** The tags of a piece of HTML: what stands between < and the next >.  [tags_go (Some t)] is inside a tag. *)
Fixpoint tags_go (open : option pystr) (x : pystr) : list pystr :=
  match x with
  | [] => match open with Some t => [t] | None => [] end
  | c :: r =>
      match open with
      | None => if N.eqb c 60 then tags_go (Some []) r else tags_go None r
      | Some t => if N.eqb c 62 then t :: tags_go None r else tags_go (Some (t ++ [c])) r
      end
  end.
Definition tags (x : pystr) : list pystr := tags_go None x.

(** ** Which columns and rows *)
(** [gs] are non-empty groups; a group without its last column fits the display, and another group follows only if it does not fit *)
Definition shown_cols (t : table) (g : list nat) : list nat := if t_hide_index t then g else O :: g.
Fixpoint wraps (o : options) (t : table) (w : nat -> Z) (gs : list (list nat)) : Prop :=
  match gs with
  | [] => True
  | g :: r =>
      g <> [] /\
      (forall d, o_display o = Some d -> (2 <= length g)%nat -> width_of (t_padding t) w (shown_cols t (removelast g)) <= d) /\
      (r <> [] -> exists d, o_display o = Some d /\ d < width_of (t_padding t) w (shown_cols t g)) /\
      wraps o t w r
  end.
(** the entries of a row: its name or number, and its cells *)
Definition row_text (o : options) (r : row) (i : Z) (l : list pystr) : Prop :=
  exists name cells, l = name :: cells /\
    match r_index r with Some x => name = x | None => decimal name = i /\ Forall is_digit name /\ name <> [] end /\
    Forall2 (fun c x => truncate o (cell_text c) = Ok x) (r_elems r) cells.
(** row [i] of the body stands in place [p] *)
Definition row_at (o : options) (body : list row) (rows : list (option (list pystr))) (p i : nat) : Prop :=
  exists r l, nth_error body i = Some r /\ nth_error rows p = Some (Some l) /\ row_text o r (Z.of_nat i) l.
Definition rows_shown (o : options) (body : list row) (rows : list (option (list pystr))) : Prop :=
  let all := length rows = length body /\ forall i, (i < length body)%nat -> row_at o body rows i i in
  match o_rows o with
  | None => all
  | Some m =>
      if zlen body <=? m then all else
      exists k : nat, Z.of_nat k = m / 2 /\ length rows = (k + 1 + k)%nat /\ nth_error rows k = Some None /\
        (forall i, (i < k)%nat -> row_at o body rows i i) /\
        (forall i, (i < k)%nat -> row_at o body rows (k + 1 + i) (length body - k + i))
  end.

(** ** HTML tables *)
(** the tags of a cell: none, or a link whose address holds no quote and no angle bracket *)
Inductive cell_tags : list pystr -> Prop :=
| tags_plain : cell_tags []
| tags_link u v : stands_for u v -> cell_tags [s "a href='" ++ u ++ s "'"; s "/a"].
(** the tags of a row of cells *)
Inductive row_tags (open close : pystr) : nat -> list pystr -> Prop :=
| rt_nil : row_tags open close O []
| rt_cons k x y : cell_tags x -> row_tags open close k y -> row_tags open close (S k) (open :: x ++ close :: y).
(** the tags of the rows; None for the gap *)
Inductive body_tags (columns : pystr) : list (option nat) -> list pystr -> Prop :=
| bt_nil : body_tags columns [] []
| bt_row k rest x y : row_tags (s "td style='text-align:left'") (s "/td") k x -> body_tags columns rest y ->
    body_tags columns (Some k :: rest) (s "tr" :: x ++ s "/tr" :: y)
| bt_gap rest y : body_tags columns rest y ->
    body_tags columns (None :: rest) (s "tr" :: (s "td colspan='" ++ columns ++ s "' style='text-align:center'") :: s "/td" :: s "/tr" :: y).
(** cells that are no ready-made HTML, in rows whose name (if any) holds no < *)
Definition plain_cell (c : cell) : Prop := match c with TCell _ _ => False | _ => True end.
Definition plain_row (r : row) : Prop := Forall plain_cell (r_elems r) /\ forall x, r_index r = Some x -> ~ In 60%N x.
(** how many entries the rows shown have (one more than cells) *)
Definition shown_sizes (o : options) (body : list row) : list (option nat) :=
  let size r := Some (S (length (r_elems r))) in
  match o_rows o with
  | Some m => if zlen body <=? m then map size body
              else let k := Z.to_nat (m / 2) in map size (firstn k body) ++ [None] ++ map size (skipn (length body - k) body)
  | None => map size body
  end.
Inductive table_tags (o : options) (t : table) : list pystr -> Prop :=
| tt_intro hd columns cap h b :
    t_header t = Some hd ->
    decimal columns = Z.of_nat (S (length (r_elems hd))) -> Forall is_digit columns ->
    cap = (match t_caption t with
           | None => []
           | Some _ => [s "tr"; s "th colspan='" ++ columns ++ s "' style='text-align:center'"; s "em"; s "/em"; s "/th"; s "/tr"]
           end) ->
    row_tags (s "th style='text-align:left'") (s "/th") (S (length (r_elems hd))) h ->
    body_tags columns (shown_sizes o (t_body t)) b ->
    table_tags o t ([s "table"; s "thead"] ++ cap ++ s "tr" :: h ++ [s "/tr"; s "/thead"; s "tbody"] ++ b ++ [s "/tbody"; s "/table"]).
