(** Tables (py/docria/printout.py): options, truncate, text and HTML tables.
    Simplifications: the padding of a style is not negative; the text and the HTML of a TableCell are strings; other objects are given
    by their str().  max_columns is never read by the code and left out, except that its property returns max_rows (54-56). *)
From Verif Require Import PyBase.
From Coq Require Import QArith Qround.
Local Open Scope Z_scope.

(** ** Options (24-94): None for no limit *)
Record options := mkOpts { o_rows : option Z; o_columns : option Z; o_width : option Z; o_display : option Z }.
(** 34-37 *)
Definition default_options : options := mkOpts (Some 100) (Some 8) (Some 30) (Some 120).
(** int(x) of a number: towards zero (printout.py 40-94) *)
Definition py_int (q : Q) : Z := if Qle_bool 0 q then Qfloor q else Qceiling q.
(** 45-51, 59-65, 73-79, 88-94: the setters; an argument is None or a number (int or finite float) *)
Definition set_limit (least : Z) (x : option Q) : res (option Z) :=
  match x with
  | None => Ok None
  | Some q => if Qle_bool q (inject_Z least) then Err ValueError else Ok (Some (py_int q))
  end.
Inductive opt_call := SetRows (x : option Q) | SetColumns (x : option Q) | SetWidth (x : option Q) | SetDisplay (x : option Q).
Definition set_option (o : options) (c : opt_call) : res options :=
  match c with
  | SetRows x => let* v := set_limit 0 x in Ok (mkOpts v (o_columns o) (o_width o) (o_display o))
  | SetColumns x => let* v := set_limit 0 x in Ok (mkOpts (o_rows o) v (o_width o) (o_display o))
  | SetWidth x => let* v := set_limit 6 x in Ok (mkOpts (o_rows o) (o_columns o) v (o_display o))
  | SetDisplay x => let* v := set_limit 10 x in Ok (mkOpts (o_rows o) (o_columns o) (o_width o) v)
  end.
(** 53-56 *)
Definition get_max_columns (o : options) : option Z := o_rows o.
(** 100-104 *)
Definition set_large_screen (o : options) : res options :=
  let* o1 := set_option o (SetWidth (Some (inject_Z 200))) in set_option o1 (SetDisplay (Some (inject_Z 200))).

(** 112-121: None - 5 is a TypeError *)
Definition truncate (o : options) (text : pystr) : res pystr :=
  match o_width o with
  | None => Ok text
  | Some w =>
      match o_display o with
      | None => Err TypeError
      | Some d =>
          let min_sz := Z.min (d - 5) (w - 5) in
          if min_sz <? zlen text then
            let part := Z.shiftr min_sz 1 in
            Ok (py_slice text (Some 0) (Some part) ++ s " ... " ++ py_slice text (Some (- part)) None)
          else Ok text
      end
  end.

(** ** Rows (124-140) *)
Inductive cell := TCell (text html : pystr) | CStr (x : pystr) | CObj (str : pystr).
Record row := mkRow { r_index : option pystr; r_elems : list cell }.
(** 161-169; [t_footer] is never shown and left out *)
Record table := mkTable { t_caption : option pystr; t_padding : nat; t_header : option row; t_body : list row; t_hide_index : bool; t_hide_header : bool }.

(** str(i) of an int (printout.py 193, 206) *)
Fixpoint digits (fuel : nat) (k : N) : pystr :=
  match fuel with
  | O => []
  | S f => if (k <? 10)%N then [(48 + k)%N] else digits f (k / 10)%N ++ [(48 + k mod 10)%N]
  end.
(** printout.py 193, 206 *)
Definition str_nat (k : N) : pystr := digits (S (N.to_nat (N.log2 k))) k.
(** printout.py 193, 206 *)
Definition str_int (i : Z) : pystr := if i <? 0 then 45%N :: str_nat (Z.to_N (- i)) else str_nat (Z.to_N i).
(** 191, 201 *)
Definition index_name (r : row) (index : Z) : pystr := match r_index r with Some x => x | None => str_int index end.
(** 190-198 *)
Definition cell_text (c : cell) : pystr := match c with TCell x _ => x | CStr x => x | CObj x => x end.
Definition format_text (o : options) (r : row) (index : Z) : res (list pystr) :=
  let* l := mapM (fun c => truncate o (cell_text c)) (r_elems r) in Ok (index_name r index :: l).

(** html.escape(s, quote=True): five replacements, one character at a time comes to the same since & is replaced first (printout.py 200-219, 331-363) *)
Definition escape_char (c : N) : pystr :=
  if N.eqb c 38 then s "&amp;" else if N.eqb c 60 then s "&lt;" else if N.eqb c 62 then s "&gt;"
  else if N.eqb c 34 then s "&quot;" else if N.eqb c 39 then s "&#x27;" else [c].
(** printout.py 200-219, 331-363 *)
Definition escape (x : pystr) : pystr := flat_map escape_char x.

(** x.split(":", 1): the part before the first colon and, if there is one, the rest (printout.py 151, 208) *)
Fixpoint split_colon (x : pystr) : pystr * option pystr :=
  match x with
  | [] => ([], None)
  | c :: r => if N.eqb c 58 then ([], Some r) else let (a, b) := split_colon r in (c :: a, b)
  end.
Section Html.
(** Unicode's word characters and str.lower() *)
Variables (is_word : N -> bool) (lower : pystr -> pystr).
(** 143, 207-208: the full match of urn:(\w+):(.+) and the last two parts of x.split(":", 2); a colon is no word character, and
    . is anything but a line feed *)
Definition urn_parts (x : pystr) : option (pystr * pystr) :=
  match split_colon x with
  | (a, Some y) =>
      if str_eqb a (s "urn") then
        match split_colon y with
        | (w, Some z) =>
            if negb (Nat.eqb (length w) 0) && forallb is_word w && negb (Nat.eqb (length z) 0) && forallb (fun c => negb (N.eqb c 10)) z
            then Some (w, z) else None
        | _ => None
        end
      else None
  | _ => None
  end.
(** 146-158: None if the type has no link function *)
Definition urn_link (urn_type partial : pystr) : option (res pystr) :=
  if str_eqb urn_type (s "wikidata") then Some (Ok (s "https://www.wikidata.org/wiki/" ++ escape partial))
  else if str_eqb urn_type (s "wikipedia") then
    Some (match split_colon partial with
          | (a, Some b) => Ok (s "https://" ++ escape a ++ s ".wikipedia.org/wiki/" ++ escape b)
          | (_, None) => Err IndexError
          end)
  else None.
(** 203-217 *)
Definition html_cell (o : options) (c : cell) : res pystr :=
  match c with
  | TCell _ h => Ok h
  | CObj x => let* t := truncate o x in Ok (escape t)
  | CStr x =>
      match match urn_parts x with Some (w, p) => urn_link (lower w) p | None => None end with
      | Some l => let* u := l in let* t := truncate o x in Ok (s "<a href='" ++ u ++ s "'>" ++ escape t ++ s "</a>")
      | None => let* t := truncate o x in Ok (escape t)
      end
  end.
(** 200-219 *)
Definition format_html (o : options) (r : row) (index : Z) : res (list pystr) :=
  let* l := mapM (html_cell o) (r_elems r) in Ok (index_name r index :: l).

(** 224-234, 241-251: the rows shown, with their numbers; None for the gap.  zip stops with the shorter. *)
Definition shown_rows (o : options) (body : list row) : list (option (Z * row)) :=
  let all := map Some (combine (zrange (length body)) body) in
  match o_rows o with
  | Some m =>
      if m <? zlen body then
        let part := Z.shiftr m 1 in
        map Some (combine (zrange (Z.to_nat part)) (py_slice body (Some 0) (Some part))) ++ [None] ++
        map Some (combine (map (fun i => zlen body - part + i) (zrange (Z.to_nat part))) (py_slice body (Some (- part)) None))
      else all
  | None => all
  end.
Definition compile (format : options -> row -> Z -> res (list pystr)) (o : options) (t : table) : res (list pystr * list (option (list pystr))) :=
  match t_header t with
  | None => Err AttributeError
  | Some hd =>
      let* headers := format o hd 0 in
      let* rows := mapM (fun x => match x with None => Ok None | Some (i, r) => let* l := format o r i in Ok (Some l) end) (shown_rows o (t_body t)) in
      Ok (headers, rows)
  end.

(** 331-363 *)
Definition html_row (columns : Z) (r : option (list pystr)) : pystr :=
  match r with
  | None => s "<tr><td colspan='" ++ str_int columns ++ s "' style='text-align:center'>. . .</td></tr>"
  | Some l => s "<tr>" ++ flat_map (fun c => s "<td style='text-align:left'>" ++ c ++ s "</td>") l ++ s "</tr>"
  end.
Definition render_html (o : options) (t : table) : res pystr :=
  let* hr := compile format_html o t in
  let (headers, rows) := hr in
  let columns := zlen headers in
  Ok (s "<table><thead>" ++
      match t_caption t with
      | Some c => s "<tr><th colspan='" ++ str_int columns ++ s "' style='text-align:center'><em>" ++ escape c ++ s "</em></th></tr>"
      | None => []
      end ++
      s "<tr>" ++ flat_map (fun c => s "<th style='text-align:left'>" ++ c ++ s "</th>") headers ++ s "</tr></thead><tbody>" ++
      flat_map (html_row columns) rows ++ s "</tbody></table>").
End Html.

(** ** render_text (258-329) *)
Definition spaces (k : nat) : pystr := repeat 32%N k.
(** "{:<w}".format(x) and "{:^w}".format(x) (printout.py 255-256, 300-329) *)
Definition left_justify (w : Z) (x : pystr) : pystr := x ++ spaces (Z.to_nat (w - zlen x)).
(** printout.py 255-256, 300-329 *)
Definition center (w : Z) (x : pystr) : pystr :=
  let k := Z.max 0 (w - zlen x) in spaces (Z.to_nat (k / 2)) ++ x ++ spaces (Z.to_nat (k - k / 2)).
(** 255-256, and str.format with one field for each width: too few arguments are an IndexError, further ones are ignored *)
Fixpoint format_line (pad : nat) (widths : list Z) (args : list pystr) : res pystr :=
  match widths, args with
  | [], _ => Ok []
  | _ :: _, [] => Err IndexError
  | w :: ws, a :: r => let* l := format_line pad ws r in Ok (spaces pad ++ left_justify w a ++ spaces pad ++ l)
  end.
(** 263: the widest entry of column [i], 0 without rows *)
Fixpoint column_width (rows : list (option (list pystr))) (i : nat) : res Z :=
  match rows with
  | [] => Ok 0
  | None :: r => column_width r i
  | Some l :: r => match nth_error l i with
                   | None => Err IndexError
                   | Some x => let* m := column_width r i in Ok (Z.max (zlen x) m)
                   end
  end.
(** 277-282: [cols] are the columns from [i] on, [acc] the width so far; the new width and column_end *)
Fixpoint take_columns (display : option Z) (pad : nat) (acc : Z) (i : nat) (cols : list Z) : Z * nat :=
  match cols with
  | [] => (acc, i)
  | w :: r =>
      let acc1 := acc + (w + Z.of_nat pad * 2) in
      if match display with Some d => d <? acc1 | None => false end then (acc1, S i) else take_columns display pad acc1 (S i) r
  end.
(** row[a:b] (printout.py 258-329) *)
Definition cols_of (l : list pystr) (a b : nat) : list pystr := firstn (b - a) (skipn a l).
(** 284-324: one block of columns *)
Definition render_block (o : options) (t : table) (headers : list pystr) (rows : list (option (list pystr))) (widths : list Z)
  (pos end_ : nat) (width : Z) : res (list pystr) :=
  let* top := if Nat.eqb pos 1
              then match t_caption t with Some c => let* x := truncate o c in Ok [center width x; []] | None => Ok [] end
              else Ok [[]; []] in
  let ws := firstn (end_ - pos) (skipn pos widths) in
  let ws1 := if t_hide_index t then ws else nth 0 widths 0 :: ws in
  let* head := if t_hide_header t then Ok [] else
               let args := if t_hide_index t then cols_of headers pos end_ else nth 0 headers [] :: cols_of headers pos end_ in
               let* x := format_line (t_padding t) ws1 args in
               Ok [x ++ (if Nat.eqb end_ (length headers) then [] else s " \"); []] in
  let* body := mapM (fun r => match r with
                              | None => Ok [[]; center width (s "..."); []]
                              | Some l => let args := if t_hide_index t then cols_of l pos end_ else nth 0 l [] :: cols_of l pos end_ in
                                          let* x := format_line (t_padding t) ws1 args in Ok [x]
                              end) rows in
  Ok (top ++ head ++ List.concat body).
(** 272-326 *)
Fixpoint render_blocks (fuel : nat) (o : options) (t : table) (headers : list pystr) (rows : list (option (list pystr))) (widths : list Z)
  (pos : nat) : res (list pystr) :=
  if Nat.ltb pos (length headers) then
    match fuel with
    | O => Err OutOfFuel
    | S f =>
        let acc := if t_hide_index t then 0 else nth 0 widths 0 + Z.of_nat (t_padding t) * 2 in
        let (width, end_) := take_columns (o_display o) (t_padding t) acc pos (skipn pos widths) in
        let* block := render_block o t headers rows widths pos end_ width in
        let* rest := render_blocks f o t headers rows widths end_ in
        Ok (block ++ rest)
    end
  else Ok [].
(** 262-268 *)
Definition actual_widths (t : table) (headers : list pystr) (rows : list (option (list pystr))) : res (list Z) :=
  let* row_widths := mapM (column_width rows) (seq 0 (length headers)) in
  Ok (if t_hide_header t then row_widths else map (fun p => Z.max (fst p) (snd p)) (combine (map zlen headers) row_widths)).
(** 258-328: the entries of [output] *)
Definition text_lines (o : options) (t : table) : res (list pystr) :=
  let* hr := compile format_text o t in
  let (headers, rows) := hr in
  let* widths := actual_widths t headers rows in
  let* out := render_blocks (length headers) o t headers rows widths 1 in
  Ok (out ++ [[]]).
(** "\n".join (printout.py 258-329) *)
Fixpoint join (sep : pystr) (l : list pystr) : pystr :=
  match l with
  | [] => []
  | [x] => x
  | x :: r => x ++ sep ++ join sep r
  end.
(** printout.py 258-329 *)
Definition render_text (o : options) (t : table) : res pystr := let* l := text_lines o t in Ok (join [10%N] l).
