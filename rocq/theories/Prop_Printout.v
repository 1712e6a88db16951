(** C51-C53: tables. *)
From Verif Require Import PyBase Spec_Printout Proof_Printout Proof_Printout2 Proof_Printout3 Proof_Printout4.
From Coq Require Import QArith.
Local Open Scope Z_scope.

(** * C51: truncated cells respect the width limit *)
(** For every option setting reached with whole numbers and not None for both limits: a text is kept or becomes prefix, dots, suffix,
    within both limits.
    Missing from "every admissible setting": fractional limits and max_display_width None (C51_fraction_refuted, C51_display_refuted). *)
Theorem C51_truncate_partial : forall o x w d, reached whole o -> o_width o = Some w -> o_display o = Some d ->
  exists y, truncate o x = Ok y /\ zlen y <= Z.min w d /\
  (zlen x <= Z.min w d - 5 -> y = x) /\
  (Z.min w d - 5 < zlen x -> exists a m b, x = a ++ m ++ b /\ y = a ++ s " ... " ++ b /\ m <> [] /\
     zlen a = (Z.min w d - 5) / 2 /\ zlen b = (Z.min w d - 5) / 2 /\ 1 <= zlen a).
Proof. exact (fun o x w d R => truncate_spec o x w d (reached_limits o R)). Qed.
Print Assumptions C51_truncate_partial.

(** Without a width limit nothing is cut. *)
Theorem C51_unlimited : forall o x, o_width o = None -> truncate o x = Ok x.
Proof. intros o x E. unfold truncate. rewrite E. reflexivity. Qed.
Print Assumptions C51_unlimited.

(** What the setters accept, and what the options then are. *)
Theorem C51_limits : forall o, reached whole o ->
  (forall m, o_rows o = Some m -> 1 <= m) /\ (forall m, o_columns o = Some m -> 1 <= m) /\
  (forall m, o_width o = Some m -> 7 <= m) /\ (forall m, o_display o = Some m -> 11 <= m).
Proof. exact reached_limits. Qed.
Print Assumptions C51_limits.

Theorem C51_setters : forall o k,
  set_option o (SetRows (Some (inject_Z k))) = (if k <=? 0 then Err ValueError else Ok (mkOpts (Some k) (o_columns o) (o_width o) (o_display o))) /\
  set_option o (SetColumns (Some (inject_Z k))) = (if k <=? 0 then Err ValueError else Ok (mkOpts (o_rows o) (Some k) (o_width o) (o_display o))) /\
  set_option o (SetWidth (Some (inject_Z k))) = (if k <=? 6 then Err ValueError else Ok (mkOpts (o_rows o) (o_columns o) (Some k) (o_display o))) /\
  set_option o (SetDisplay (Some (inject_Z k))) = (if k <=? 10 then Err ValueError else Ok (mkOpts (o_rows o) (o_columns o) (o_width o) (Some k))).
Proof.
  intros o k. cbn [set_option]. rewrite !set_whole. destruct (k <=? 0), (k <=? 6), (k <=? 10); repeat split; reflexivity.
Qed.
Print Assumptions C51_setters.

(** Turning the display limit off makes truncate raise. *)
Theorem C51_display_refuted : exists o, reached whole o /\ o_display o = None /\ forall x, truncate o x = Err TypeError.
Proof.
  exists (mkOpts (Some 100) (Some 8) (Some 30) None). split; [|split; [reflexivity|intros x; reflexivity]].
  eapply reached_set; [apply reached_default|apply none_display|reflexivity].
Qed.
Print Assumptions C51_display_refuted.

(** A width of 6.5 is accepted and becomes 6; a long text is then shown in full, with dots before it. *)
Theorem C51_fraction_refuted : exists o x y w, reached (fun _ => True) o /\ o_width o = Some w /\ truncate o x = Ok y /\ w < zlen y.
Proof.
  exists (mkOpts (Some 100) (Some 8) (Some 6) (Some 120)), (s "abcdef"), (s " ... abcdef"), 6.
  split; [|split; [reflexivity|split; reflexivity]].
  eapply reached_set with (c := SetWidth (Some (13 # 2))); [apply reached_default|exact Logic.I|reflexivity].
Qed.
Print Assumptions C51_fraction_refuted.

(** A text within the limit may still be cut, and may become longer by it. *)
Theorem C51_fits_refuted : exists x y w, o_width default_options = Some w /\ zlen x <= w /\ truncate default_options x = Ok y /\ zlen x < zlen y.
Proof.
  exists (s "abcdefghijklmnopqrstuvwxyz"), (s "abcdefghijkl ... opqrstuvwxyz"), 30. repeat split; vm_compute; congruence.
Qed.
Print Assumptions C51_fits_refuted.

(** The property max_columns answers max_rows. *)
Theorem C51_max_columns : exists o, set_option default_options (SetColumns (Some (inject_Z 3))) = Ok o /\ get_max_columns o = Some 100.
Proof. eexists. split; reflexivity. Qed.
Print Assumptions C51_max_columns.

Example C51_case : reached whole (mkOpts (Some 100) (Some 8) (Some 15) (Some 120)) /\
  truncate (mkOpts (Some 100) (Some 8) (Some 15) (Some 120)) (s "The quick brown fox") = Ok (s "The q ... n fox").
Proof. split; [|reflexivity]. eapply reached_set; [apply reached_default|apply (whole_width 15)|reflexivity]. Qed.

(** * C52: tables show every column once and the outer rows *)
(** The rendered table is a sequence of blocks: every column from the first on is in exactly one block, in order; a block holds the lines
    given by [block_lines], in columns just wide enough; [wraps] says where blocks end. *)
Theorem C52_layout : forall o t x, render_text o t = Ok x ->
  exists headers rows w gs out, compile format_text o t = Ok (headers, rows) /\
    (forall j, (j < length headers)%nat -> least_width t headers rows j (w j)) /\
    (forall l, In (Some l) rows -> (length headers <= length l)%nat) /\
    List.concat gs = seq 1 (length headers - 1) /\ wraps o t w gs /\
    blocks_lines o t headers rows w true gs out /\ x = join [10%N] (out ++ [[]]).
Proof.
  unfold render_text. intros o t x. destruct (text_lines o t) as [lines|] eqn:E; [|discriminate]. cbn [rbind]. intros X.
  destruct (layout o t lines E) as (h & r & w & gs & out & A & B & C & D & F & G & ->). exists h, r, w, gs, out.
  repeat (split; [assumption|]). symmetry. exact (Ok_inj _ _ X).
Qed.
Print Assumptions C52_layout.

(** Header and rows: the entries are the truncated cells; all rows, or the first and the last max_rows // 2 with their own numbers. *)
Theorem C52_rows : forall o t headers rows, reached whole o -> compile format_text o t = Ok (headers, rows) ->
  exists hd, t_header t = Some hd /\ row_text o hd 0 headers /\ rows_shown o (t_body t) rows.
Proof.
  intros o t h r R. apply compile_rows. intros m E. destruct (reached_limits o R) as (L & _). specialize (L m E). now apply Z.le_trans with 1.
Qed.
Print Assumptions C52_rows.

(** A table with a header and no row shorter than it is rendered. *)
Theorem C52_total : forall o t hd, reached whole o -> (o_width o = None \/ o_display o <> None) -> t_header t = Some hd ->
  (forall r, In r (t_body t) -> (length (r_elems hd) <= length (r_elems r))%nat) -> exists x, render_text o t = Ok x.
Proof.
  intros o t hd R H E L. destruct (text_total o t hd (reached_limits o R) H E L) as (l & X). exists (join [10%N] l). unfold render_text. rewrite X. reflexivity.
Qed.
Print Assumptions C52_total.

(** A row with too few cells raises. *)
Theorem C52_short_row : forall o t hd r, reached whole o -> (o_width o = None \/ o_display o <> None) -> o_rows o = None ->
  t_header t = Some hd -> In r (t_body t) -> (length (r_elems r) < length (r_elems hd))%nat -> render_text o t = Err IndexError.
Proof. intros o t hd r R H N E I L. unfold render_text. rewrite (short_row o t hd r (reached_limits o R) H N E I L). reflexivity. Qed.
Print Assumptions C52_short_row.

(** Columns are aligned: all lines of a block have one width, and the entry of a column stands at the same place in each. *)
Theorem C52_aligned : forall pad w x a j b, (forall i, In i (a ++ j :: b) -> zlen (nth i x []) <= w i) ->
  zlen (line pad w x (a ++ j :: b)) = width_of pad w (a ++ j :: b) /\
  sub (line pad w x (a ++ j :: b)) (width_of pad w a + Z.of_nat pad) (width_of pad w a + Z.of_nat pad + zlen (nth j x [])) = nth j x [].
Proof. intros pad w x a j b H. split; [apply width_line, H|apply cell_place, H]. Qed.
Print Assumptions C52_aligned.

(** A block may be wider than the display although none of its columns is, since the column that exceeds the limit is kept. *)
Definition wide : table := mkTable None 2 (Some (mkRow (Some (s "#")) [CStr (s "abcdef"); CStr (s "ghijkl"); CStr (s "m")])) [mkRow None [CStr (s "1"); CStr (s "2"); CStr (s "3")]] true false.
Theorem C52_display_refuted : exists o t x d, reached whole o /\ o_display o = Some d /\ render_text o t = Ok x /\
  x = s "  abcdef    ghijkl   \" ++ [10%N; 10%N] ++ s "  1         2       " ++ [10%N; 10%N; 10%N] ++ s "  m  " ++ [10%N; 10%N] ++ s "  3  " ++ [10%N] /\ d < zlen (s "  1         2       ").
Proof.
  exists (mkOpts (Some 100) (Some 8) (Some 30) (Some 12)), wide. eexists. exists 12. split; [|split; [reflexivity|split; [vm_compute; reflexivity|split; [reflexivity|reflexivity]]]].
  eapply reached_set; [apply reached_default|apply (whole_display 12)|reflexivity].
Qed.
Print Assumptions C52_display_refuted.

(** With max_rows 1 no row is shown at all. *)
Theorem C52_one_row : forall o body rows, o_rows o = Some 1 -> 1 < zlen body -> rows_shown o body rows -> rows = [None].
Proof.
  intros o body rows E L H. unfold rows_shown in H. rewrite E in H. destruct (Z.leb_spec (zlen body) 1) as [G|_]; [exfalso; exact (Zle_not_lt _ _ G L)|].
  destruct H as (k & K & N & X & _). change (1 / 2) with 0 in K. destruct k; [|discriminate K]. destruct rows as [|r [|? ?]]; try discriminate N. injection X as ->. reflexivity.
Qed.
Print Assumptions C52_one_row.

Definition long : table := mkTable (Some (s "Cap")) 1 (Some (mkRow (Some (s "#")) [CStr (s "a")]))
  [mkRow None [CObj (s "x")]; mkRow None [CObj (s "yy")]; mkRow (Some (s "k")) [CObj (s "z")]] false false.
Example C52_case : exists o x, reached whole o /\ render_text o long = Ok x /\
  x = join [10%N] [s " Cap  "; []; s " #  a "; []; s " 0  x "; []; s " ...  "; []; s " k  z "; []].
Proof.
  exists (mkOpts (Some 2) (Some 8) (Some 30) (Some 120)). eexists. split; [|split; vm_compute; reflexivity].
  eapply reached_set; [apply reached_default|apply (whole_rows 2)|reflexivity].
Qed.

(** * C53: HTML cells are escaped *)
(** Whatever word characters and lower() are: the HTML of a value stands for its truncated text, or is a link with such a text, to an address
    without quotes or angle brackets. *)
Theorem C53_cell : forall iw lo o c x, plain_cell c -> html_cell iw lo o c = Ok x ->
  exists y, truncate o (cell_text c) = Ok y /\
  (stands_for x y \/ exists u v z, stands_for u v /\ stands_for z y /\ x = s "<a href='" ++ u ++ s "'>" ++ z ++ s "</a>").
Proof. exact cell_any. Qed.
Print Assumptions C53_cell.

(** Only texts of the form urn:..:.. become links. *)
Theorem C53_plain : forall iw lo o c x, plain_cell c -> (forall w p, c <> CStr (s "urn:" ++ w ++ 58%N :: p)) -> html_cell iw lo o c = Ok x ->
  exists y, truncate o (cell_text c) = Ok y /\ stands_for x y.
Proof. exact cell_plain. Qed.
Print Assumptions C53_plain.

(** The two kinds of links. *)
Theorem C53_wikidata : forall iw lo o w p y, w <> [] -> forallb iw w = true -> ~ In 58%N w -> p <> [] -> ~ In 10%N p ->
  lo w = s "wikidata" -> truncate o (s "urn:" ++ w ++ 58%N :: p) = Ok y ->
  html_cell iw lo o (CStr (s "urn:" ++ w ++ 58%N :: p)) = Ok (s "<a href='" ++ (s "https://www.wikidata.org/wiki/" ++ escape p) ++ s "'>" ++ escape y ++ s "</a>").
Proof. exact link_wikidata. Qed.
Print Assumptions C53_wikidata.

Theorem C53_wikipedia : forall iw lo o w a b y, w <> [] -> forallb iw w = true -> ~ In 58%N w -> ~ In 58%N a -> ~ In 10%N (a ++ 58%N :: b) ->
  lo w = s "wikipedia" -> truncate o (s "urn:" ++ w ++ 58%N :: a ++ 58%N :: b) = Ok y ->
  html_cell iw lo o (CStr (s "urn:" ++ w ++ 58%N :: a ++ 58%N :: b)) =
  Ok (s "<a href='" ++ (s "https://" ++ escape a ++ s ".wikipedia.org/wiki/" ++ escape b) ++ s "'>" ++ escape y ++ s "</a>").
Proof. exact link_wikipedia. Qed.
Print Assumptions C53_wikipedia.

(** Escaped HTML holds none of the four characters, and stands for one text only. *)
Theorem C53_escape : forall x, stands_for (escape x) x /\ (forall c, In c [60%N; 62%N; 34%N; 39%N] -> ~ In c (escape x)) /\ (forall y, stands_for (escape x) y -> y = x).
Proof.
  intros x. split; [apply escape_ok|]. split; [intros c; apply (stands_no_tag _ x c), escape_ok|]. intros y H. symmetry. exact (stands_fun _ _ (escape_ok x) y H).
Qed.
Print Assumptions C53_escape.

(** The tags of a whole table depend on its shape only: no value can add a tag or an attribute. *)
Theorem C53_table : forall iw lo o t x, reached whole o ->
  (forall hd, t_header t = Some hd -> plain_row hd) -> Forall plain_row (t_body t) ->
  render_html iw lo o t = Ok x -> table_tags o t (tags x).
Proof.
  intros iw lo o t x R. apply table_html. intros m E. destruct (reached_limits o R) as (L & _). specialize (L m E). now apply Z.le_trans with 1.
Qed.
Print Assumptions C53_table.

(** The name of a row is not escaped. *)
Theorem C53_index_refuted : forall iw lo, exists t x, Forall (fun r => Forall plain_cell (r_elems r)) (t_body t) /\
  render_html iw lo default_options t = Ok x /\ In (s "script") (tags x).
Proof.
  intros iw lo. exists (mkTable None 2 (Some (mkRow (Some (s "#")) [])) [mkRow (Some (s "<script>")) []] false false). eexists.
  split; [constructor; [constructor|constructor]|]. split; [vm_compute; reflexivity|]. vm_compute. intuition.
Qed.
Print Assumptions C53_index_refuted.

(** A Wikipedia name without a language raises, whatever the table. *)
Theorem C53_wikipedia_refuted : forall iw lo o, (forall c, In c (s "wikipedia") -> iw c = true) -> lo (s "wikipedia") = s "wikipedia" ->
  html_cell iw lo o (CStr (s "urn:wikipedia:Sverige")) = Err IndexError.
Proof.
  intros iw lo o W L. cbn [html_cell]. change (s "urn:wikipedia:Sverige") with (s "urn:" ++ s "wikipedia" ++ 58%N :: s "Sverige").
  rewrite (urn_some iw); [rewrite L; reflexivity|discriminate|apply forallb_forall, W|cbn; intuition discriminate|discriminate|cbn; intuition discriminate].
Qed.
Print Assumptions C53_wikipedia_refuted.

Example C53_case : let iw := (fun c => negb (N.eqb c 45)) in let lo := (fun x : pystr => x) in
  html_cell iw lo default_options (CStr (s "a<b>&'c'")) = Ok (s "a&lt;b&gt;&amp;&#x27;c&#x27;") /\
  html_cell iw lo default_options (CStr (s "urn:wikidata:Q'4")) = Ok (s "<a href='https://www.wikidata.org/wiki/Q&#x27;4'>urn:wikidata:Q&#x27;4</a>") /\
  plain_row (mkRow None [CStr (s "a<b>")]).
Proof.
  split; [reflexivity|]. split; [reflexivity|]. split; [constructor; [exact Logic.I|constructor]|discriminate].
Qed.
