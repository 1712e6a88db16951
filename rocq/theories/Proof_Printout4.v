(** Proofs about HTML tables. *)
From Verif Require Import PyBase PyBaseFacts Model_Printout Spec_Printout Proof_Printout Proof_Printout2 Proof_Printout3.
From Coq Require Import Lia ZArith.
Local Open Scope Z_scope.

(** ** Tags *)
(** HTML whose tags are all closed: [html_tags x l] *)
Inductive html_tags : pystr -> list pystr -> Prop :=
| ht_nil : html_tags [] []
| ht_char c x l : c <> 60%N -> html_tags x l -> html_tags (c :: x) l
| ht_tag t x l : ~ In 62%N t -> html_tags x l -> html_tags (60%N :: t ++ 62%N :: x) (t :: l).
Lemma tags_inside t u x : ~ In 62%N u -> tags_go (Some t) (u ++ 62%N :: x) = (t ++ u) :: tags_go None x.
Proof.
  revert t. induction u as [|c u IH]; intros t H; cbn [app tags_go].
  - rewrite app_nil_r. reflexivity.
  - destruct (N.eqb_spec c 62) as [->|]; [exfalso; apply H; left; reflexivity|]. rewrite IH; [rewrite <- app_assoc; reflexivity|]. intros X. apply H. right. exact X.
Qed.
Lemma html_tags_ok x l : html_tags x l -> tags x = l.
Proof.
  unfold tags. induction 1 as [|c x l N H IH|t x l N H IH]; [reflexivity|..]; cbn [tags_go].
  - apply N.eqb_neq in N. rewrite N. exact IH.
  - rewrite N.eqb_refl. rewrite tags_inside by exact N. cbn [app]. rewrite IH. reflexivity.
Qed.
Lemma ht_app a la b lb : html_tags a la -> html_tags b lb -> html_tags (a ++ b) (la ++ lb).
Proof.
  induction 1 as [|c x l N H IH|t x l N H IH]; intros B; cbn [app]; [exact B|apply ht_char; auto|].
  rewrite <- app_assoc. cbn [app]. apply ht_tag; auto.
Qed.
Lemma ht_plain x : ~ In 60%N x -> html_tags x [].
Proof. induction x as [|c x IH]; intros H; [constructor|]. apply ht_char; [intros ->; apply H; left; reflexivity|]. apply IH. intros X. apply H. right. exact X. Qed.
Lemma ht_escape x : html_tags (escape x) [].
Proof. apply ht_plain, (stands_no_tag _ x). apply escape_ok. left. reflexivity. Qed.
Lemma ht_one t : ~ In 62%N t -> html_tags (60%N :: t ++ [62%N]) [t].
Proof. intros H. apply ht_tag; [exact H|constructor]. Qed.
(** closed HTML given literally *)
Fixpoint parse_tags (fuel : nat) (x : pystr) : option (list pystr) :=
  match x with
  | [] => Some []
  | c :: r =>
      match fuel with
      | O => None
      | S f => if N.eqb c 60 then
                 (fix go (t y : pystr) : option (list pystr) :=
                    match y with [] => None | d :: z => if N.eqb d 62 then option_map (cons t) (parse_tags f z) else go (t ++ [d]) z end) [] r
               else parse_tags f r
      end
  end.
Lemma parse_ok f x l : parse_tags f x = Some l -> html_tags x l.
Proof.
  revert x l. induction f as [|f IH]; intros x l; destruct x as [|c r]; cbn [parse_tags]; try discriminate; try (intros E; injection E as <-; constructor).
  destruct (N.eqb_spec c 60) as [->|Nc]; [|intros E; apply ht_char; [exact Nc|apply IH, E]].
  set (go := fix go (t y : pystr) : option (list pystr) := match y with [] => None | d :: z => if N.eqb d 62 then option_map (cons t) (parse_tags f z) else go (t ++ [d]) z end).
  assert (G : forall y t l, ~ In 62%N t -> go t y = Some l -> html_tags (60%N :: t ++ y) l).
  { induction y as [|d z IHy]; intros t l0 Nt; cbn [go]; [discriminate|]. destruct (N.eqb_spec d 62) as [->|Nd].
    - destruct (parse_tags f z) as [lz|] eqn:Ez; [|discriminate]. cbn. intros E. injection E as <-. apply ht_tag; [exact Nt|apply IH, Ez].
    - intros E. apply IHy in E; [rewrite <- app_assoc in E; exact E|]. intros X. apply in_app_or in X as [X|[X|[]]]; [exact (Nt X)|exact (Nd (eq_sym (eq_sym X)))]. }
  intros E. apply (G r [] l); [intros []|exact E].
Qed.
Ltac tags_of := match goal with |- html_tags ?x _ => apply (parse_ok (length x)); vm_compute; reflexivity end.

(** ** Cells *)
Lemma plain_stands x : forallb (fun c => negb (special c)) x = true -> stands_for x x.
Proof.
  induction x as [|c x IH]; [constructor|]. cbn [forallb]. intros H. apply andb_prop in H. destruct H as [A B].
  apply st_plain; [destruct (special c); [discriminate A|reflexivity]|apply IH, B].
Qed.
Lemma urn_link_safe ty p u : urn_link ty p = Some (Ok u) -> exists v, stands_for u v.
Proof.
  unfold urn_link. intros E. destruct (str_eqb ty (s "wikidata")).
  - assert (U : u = s "https://www.wikidata.org/wiki/" ++ escape p) by congruence. rewrite U. exists (s "https://www.wikidata.org/wiki/" ++ p).
    apply stands_app; [apply plain_stands; reflexivity|apply escape_ok].
  - destruct (str_eqb ty (s "wikipedia")); [|discriminate E]. destruct (split_colon p) as [a [b|]]; [|discriminate E].
    assert (U : u = s "https://" ++ escape a ++ s ".wikipedia.org/wiki/" ++ escape b) by congruence. rewrite U.
    exists (s "https://" ++ a ++ s ".wikipedia.org/wiki/" ++ b).
    apply stands_app; [apply plain_stands; reflexivity|apply stands_app; [apply escape_ok|apply stands_app; [apply plain_stands; reflexivity|apply escape_ok]]].
Qed.
Lemma Ok_inj {A} (a b : A) : Ok a = Ok b -> a = b.
Proof. congruence. Qed.
Lemma cell_cases iw lo o c x : plain_cell c -> html_cell iw lo o c = Ok x ->
  exists y, truncate o (cell_text c) = Ok y /\
   ((x = escape y) \/ (exists u v, stands_for u v /\ x = s "<a href='" ++ u ++ s "'>" ++ escape y ++ s "</a>")).
Proof.
  destruct c as [a b|a|a]; intros P; [destruct P|..]; cbn [html_cell cell_text].
  - destruct (match urn_parts iw a with Some (w, p) => urn_link (lo w) p | None => None end) as [l|] eqn:U.
    + destruct l as [u|]; [|discriminate]. cbn [rbind]. destruct (truncate o a) as [y|]; [|discriminate]. cbn [rbind]. intros E. apply Ok_inj in E.
      exists y. split; [reflexivity|]. right. destruct (urn_parts iw a) as [[w p]|]; [|discriminate U].
      destruct (urn_link_safe _ _ _ U) as (v & Hv). exists u, v. split; [exact Hv|symmetry; exact E].
    + destruct (truncate o a) as [y|]; [|discriminate]. cbn [rbind]. intros E. injection E as <-. exists y. split; [reflexivity|left; reflexivity].
  - destruct (truncate o a) as [y|]; [|discriminate]. cbn [rbind]. intros E. injection E as <-. exists y. split; [reflexivity|left; reflexivity].
Qed.
Lemma link_tags u v y : stands_for u v -> html_tags (s "<a href='" ++ u ++ s "'>" ++ escape y ++ s "</a>") [s "a href='" ++ u ++ s "'"; s "/a"].
Proof.
  intros H. change (s "<a href='" ++ u ++ s "'>" ++ escape y ++ s "</a>") with (60%N :: s "a href='" ++ u ++ [39%N; 62%N] ++ escape y ++ s "</a>").
  replace (s "a href='" ++ u ++ [39%N; 62%N] ++ escape y ++ s "</a>") with ((s "a href='" ++ u ++ s "'") ++ 62%N :: escape y ++ s "</a>")
    by (rewrite <- !app_assoc; reflexivity).
  apply ht_tag.
  - intros X. apply in_app_or in X as [X|X]; [cbn in X; intuition discriminate|]. apply in_app_or in X as [X|X]; [|cbn in X; intuition discriminate].
    revert X. apply (stands_no_tag _ v); [exact H|right; left; reflexivity].
  - apply (ht_app _ [] _ [s "/a"]); [apply ht_escape|tags_of].
Qed.
Lemma cell_html iw lo o c x : plain_cell c -> html_cell iw lo o c = Ok x -> exists l, html_tags x l /\ cell_tags l.
Proof.
  intros P E. destruct (cell_cases _ _ _ _ _ P E) as (y & _ & [->|(u & v & H & ->)]).
  - exists []. split; [apply ht_escape|constructor].
  - exists [s "a href='" ++ u ++ s "'"; s "/a"]. split; [apply (link_tags _ v), H|apply (tags_link _ v), H].
Qed.
Lemma digits_no x : Forall is_digit x -> ~ In 60%N x /\ ~ In 62%N x.
Proof.
  intros H. rewrite Forall_forall in H. split; intros X; apply H in X; unfold is_digit in X; lia.
Qed.
Lemma str_int_digits i : 0 <= i -> Forall is_digit (str_int i).
Proof. intros L. apply str_int_ok, L. Qed.
Lemma row_html iw lo o r i l : 0 <= i -> plain_row r -> format_html iw lo o r i = Ok l ->
  length l = S (length (r_elems r)) /\ Forall (fun x => exists y, html_tags x y /\ cell_tags y) l.
Proof.
  intros L [P Q]. unfold format_html. destruct (mapM (html_cell iw lo o) (r_elems r)) as [m|] eqn:M; [|discriminate]. cbn [rbind]. intros E. injection E as <-.
  apply mapM_forall2 in M. split; [cbn; rewrite (forall2_length _ _ _ M); reflexivity|]. constructor.
  - exists []. split; [|constructor]. apply ht_plain. unfold index_name. destruct (r_index r) as [x|]; [apply Q; reflexivity|].
    apply digits_no, str_int_digits, L.
  - clear Q. induction M as [|c x cs xs H M IH]; [constructor|]. apply Forall_cons_iff in P. destruct P as [P1 P2]. constructor; [apply (cell_html iw lo o c), H; exact P1|apply IH, P2].
Qed.
(** the entries of a row between an opening and a closing tag *)
Lemma row_tags_ok (open close : pystr) l : ~ In 62%N open -> ~ In 62%N close ->
  Forall (fun x => exists y, html_tags x y /\ cell_tags y) l ->
  exists ts, html_tags (flat_map (fun c => (60%N :: open ++ [62%N]) ++ c ++ (60%N :: close ++ [62%N])) l) ts /\ row_tags open close (length l) ts.
Proof.
  intros O C. induction 1 as [|x l (y & Hx & Hy) H IH]; [exists []; split; constructor|]. destruct IH as (ts & A & B).
  exists (open :: y ++ close :: ts). split; [|constructor; assumption]. cbn [flat_map].
  replace (open :: y ++ close :: ts) with ((open :: y ++ [close]) ++ ts) by (cbn [app]; rewrite <- app_assoc; reflexivity).
  apply ht_app; [|exact A].
  apply (ht_app _ [open] _ (y ++ [close])); [apply ht_one, O|]. apply ht_app; [exact Hx|apply ht_one, C].
Qed.

(** ** Tables *)
Lemma shown_sizes_ok o body : (forall m, o_rows o = Some m -> 0 <= m) ->
  map (fun x : option (Z * row) => match x with None => None | Some (_, r) => Some (S (length (r_elems r))) end) (shown_rows o body) = shown_sizes o body.
Proof.
  intros Pos. unfold shown_rows, shown_sizes. set (sz := fun x : option (Z * row) => match x with None => None | Some (_, r) => Some (S (length (r_elems r))) end).
  assert (G : forall (a : list Z) (b : list row), length a = length b -> map sz (map Some (combine a b)) = map (fun r => Some (S (length (r_elems r)))) b).
  { induction a as [|i a IH]; intros [|r b] E; try discriminate E; [reflexivity|]. cbn. f_equal. apply IH. injection E as E. exact E. }
  destruct (o_rows o) as [m|]; [|apply G, zrange_length]. specialize (Pos m eq_refl). rewrite Z.leb_antisym.
  destruct (Z.ltb_spec m (zlen body)) as [L|L]; cbn [negb]; [|apply G, zrange_length].
  assert (K : 0 <= m / 2 /\ 2 * (m / 2) <= m) by (split; [apply Z.div_pos; lia|apply Z.mul_div_le; lia]).
  rewrite Z.shiftr_div_pow2 by lia. change (2 ^ 1) with 2. rewrite !map_app. f_equal; [|cbn [map app]; f_equal].
  - rewrite slice_first by lia. apply G. rewrite zrange_length, firstn_length. unfold zlen in L. lia.
  - destruct (Z.eq_dec (m / 2) 0) as [E|N].
    + rewrite E. cbn. rewrite Nat.sub_0_r, skipn_all. reflexivity.
    + rewrite slice_last by lia. apply G. rewrite map_length, zrange_length, skipn_length. unfold zlen in L. lia.
Qed.
Lemma body_html iw lo o columns (rs : list (option (Z * row))) rows cols : Forall is_digit cols -> str_int columns = cols ->
  (forall i r, In (Some (i, r)) rs -> 0 <= i /\ plain_row r) ->
  mapM (fun x => match x with None => Ok None | Some (i, r) => let* l := format_html iw lo o r i in Ok (Some l) end) rs = Ok rows ->
  exists b, html_tags (flat_map (html_row columns) rows) b /\
    body_tags cols (map (fun x : option (Z * row) => match x with None => None | Some (_, r) => Some (S (length (r_elems r))) end) rs) b.
Proof.
  intros Dg Ec Pl M. apply mapM_forall2 in M. induction M as [|x y rs rows H M IH]; [exists []; split; constructor|].
  destruct IH as (b & A & B); [intros i r X; apply Pl; right; exact X|]. cbn [flat_map map]. destruct x as [[i r]|].
  - destruct (format_html iw lo o r i) as [l|] eqn:F; [|discriminate H]. cbn [rbind] in H. injection H as <-.
    destruct (Pl i r (or_introl eq_refl)) as (Li & Pr). destruct (row_html _ _ _ _ _ _ Li Pr F) as (Ll & Hl).
    destruct (row_tags_ok (s "td style='text-align:left'") (s "/td") l) as (ts & Ht & Rt); [cbn; intuition discriminate|cbn; intuition discriminate|exact Hl|].
    rewrite Ll in Rt. exists (s "tr" :: ts ++ s "/tr" :: b). split; [|constructor; assumption]. cbn [html_row].
    replace (s "tr" :: ts ++ s "/tr" :: b) with ((s "tr" :: ts ++ [s "/tr"]) ++ b) by (cbn [app]; rewrite <- app_assoc; reflexivity).
    apply ht_app; [|exact A].
    apply (ht_app _ [s "tr"] _ (ts ++ [s "/tr"])); [tags_of|]. apply (ht_app _ ts _ [s "/tr"]); [exact Ht|tags_of].
  - injection H as <-. cbn [html_row]. rewrite Ec.
    exists (s "tr" :: (s "td colspan='" ++ cols ++ s "' style='text-align:center'") :: s "/td" :: s "/tr" :: b). split; [|constructor; assumption].
    apply (ht_app _ [s "tr"; s "td colspan='" ++ cols ++ s "' style='text-align:center'"; s "/td"; s "/tr"] _ b); [|exact A].
    change (s "<tr><td colspan='") with (s "<tr>" ++ [60%N] ++ s "td colspan='"). rewrite <- !app_assoc.
    apply (ht_app _ [s "tr"] _ [s "td colspan='" ++ cols ++ s "' style='text-align:center'"; s "/td"; s "/tr"]); [tags_of|].
    replace ([60%N] ++ s "td colspan='" ++ cols ++ s "' style='text-align:center'>. . .</td></tr>")
      with (60%N :: (s "td colspan='" ++ cols ++ s "' style='text-align:center'") ++ 62%N :: s ". . .</td></tr>") by (rewrite <- !app_assoc; reflexivity).
    apply ht_tag; [|tags_of]. intros X. apply in_app_or in X as [X|X]; [cbn in X; intuition discriminate|]. apply in_app_or in X as [X|X]; [|cbn in X; intuition discriminate].
    exact (proj2 (digits_no _ Dg) X).
Qed.
Lemma shown_nonneg o body i r : (forall m, o_rows o = Some m -> 0 <= m) -> In (Some (i, r)) (shown_rows o body) -> 0 <= i.
Proof.
  intros Pos. unfold shown_rows. assert (Z0 : forall k (j : Z), In j (zrange k) -> 0 <= j).
  { intros k j X. unfold zrange in X. apply in_map_iff in X. destruct X as (n & <- & _). lia. }
  assert (A : In (Some (i, r)) (map Some (combine (zrange (length body)) body)) -> 0 <= i).
  { intros H. apply in_map_iff in H. destruct H as ([j q] & E & H). injection E as -> ->. apply in_combine_l in H. eapply Z0, H. }
  destruct (o_rows o) as [m|]; [|exact A]. specialize (Pos m eq_refl). destruct (Z.ltb_spec m (zlen body)) as [L|]; [|exact A].
  rewrite Z.shiftr_div_pow2 by lia. change (2 ^ 1) with 2. pose proof (Z.mul_div_le m 2 ltac:(lia)) as K. pose proof (Z.div_pos m 2 Pos ltac:(lia)) as K0. intros H.
  apply in_app_or in H as [H|H]; [|apply in_app_or in H as [[H|[]]|H]; [discriminate H|]];
    apply in_map_iff in H; destruct H as ([j q] & E & H); injection E as -> ->; apply in_combine_l in H; [eapply Z0, H|].
  apply in_map_iff in H. destruct H as (j & <- & X). apply Z0 in X. lia.
Qed.
Lemma table_html iw lo o t x : (forall m, o_rows o = Some m -> 0 <= m) ->
  (forall hd, t_header t = Some hd -> plain_row hd) -> Forall plain_row (t_body t) ->
  render_html iw lo o t = Ok x -> table_tags o t (tags x).
Proof.
  intros Pos Ph Pb. unfold render_html, compile. destruct (t_header t) as [hd|] eqn:Eh; [|discriminate]. specialize (Ph hd eq_refl).
  destruct (format_html iw lo o hd 0) as [headers|] eqn:F; [|discriminate]. cbn [rbind].
  destruct (mapM _ (shown_rows o (t_body t))) as [rows|] eqn:M; [|discriminate]. cbn [rbind]. intros E. apply Ok_inj in E. rewrite <- E. clear E x.
  destruct (row_html _ _ _ _ _ _ (Z.le_refl 0) Ph F) as (Lh & Hh).
  set (cols := str_int (zlen headers)). destruct (str_int_ok (zlen headers) (zlen_nonneg _)) as (Dc & Dg & _). fold cols in Dc, Dg.
  destruct (row_tags_ok (s "th style='text-align:left'") (s "/th") headers) as (h & Ht & Rt); [cbn; intuition discriminate|cbn; intuition discriminate|exact Hh|].
  rewrite Lh in Rt.
  assert (Pl : forall i r, In (Some (i, r)) (shown_rows o (t_body t)) -> 0 <= i /\ plain_row r).
  { intros i r X. split; [eapply shown_nonneg, X; exact Pos|]. rewrite Forall_forall in Pb. apply Pb. eapply shown_in, X. }
  destruct (body_html iw lo o (zlen headers) _ _ cols Dg eq_refl Pl M) as (b & Hb & Bt).
  rewrite shown_sizes_ok in Bt by exact Pos.
  set (cap := match t_caption t with None => [] | Some _ => [s "tr"; s "th colspan='" ++ cols ++ s "' style='text-align:center'"; s "em"; s "/em"; s "/th"; s "/tr"] end).
  assert (T : forall z, html_tags z ([s "table"; s "thead"] ++ cap ++ s "tr" :: h ++ [s "/tr"; s "/thead"; s "tbody"] ++ b ++ [s "/tbody"; s "/table"]) -> table_tags o t (tags z)).
  { intros z Hz. rewrite (html_tags_ok _ _ Hz). apply tt_intro with (hd := hd) (columns := cols); [exact Eh| |exact Dg|reflexivity|exact Rt|exact Bt].
    rewrite Dc. unfold zlen. rewrite Lh. reflexivity. }
  apply T. apply ht_app; [tags_of|]. apply ht_app.
  - unfold cap. destruct (t_caption t) as [c|]; [|constructor].
    change (s "<tr><th colspan='") with (s "<tr>" ++ [60%N] ++ s "th colspan='"). rewrite <- !app_assoc.
    apply (ht_app _ [s "tr"] _ [s "th colspan='" ++ cols ++ s "' style='text-align:center'"; s "em"; s "/em"; s "/th"; s "/tr"]); [tags_of|].
    replace ([60%N] ++ s "th colspan='" ++ cols ++ s "' style='text-align:center'><em>" ++ escape c ++ s "</em></th></tr>")
      with (60%N :: (s "th colspan='" ++ cols ++ s "' style='text-align:center'") ++ 62%N :: s "<em>" ++ escape c ++ s "</em></th></tr>") by (rewrite <- !app_assoc; reflexivity).
    apply ht_tag.
    + intros X. apply in_app_or in X as [X|X]; [cbn in X; intuition discriminate|]. apply in_app_or in X as [X|X]; [|cbn in X; intuition discriminate].
      exact (proj2 (digits_no _ Dg) X).
    + apply (ht_app _ [s "em"] _ [s "/em"; s "/th"; s "/tr"]); [tags_of|]. apply (ht_app _ [] _ [s "/em"; s "/th"; s "/tr"]); [apply ht_escape|tags_of].
  - apply (ht_app _ [s "tr"] _ (h ++ [s "/tr"; s "/thead"; s "tbody"] ++ b ++ [s "/tbody"; s "/table"])); [tags_of|].
    apply ht_app; [exact Ht|]. apply ht_app; [tags_of|]. apply ht_app; [exact Hb|tags_of].
Qed.

(** ** Statements for the property file *)
Lemma width_line pad w x cols : (forall j, In j cols -> zlen (nth j x []) <= w j) -> zlen (line pad w x cols) = width_of pad w cols.
Proof.
  induction cols as [|j cols IH]; intros H; [reflexivity|]. cbn [line flat_map width_of fold_right]. fold (line pad w x cols). fold (width_of pad w cols).
  rewrite zlen_app, IH by (intros i Hi; apply H; right; exact Hi). unfold slot. rewrite !zlen_app.
  specialize (H j (or_introl eq_refl)). unfold zlen, pystr in *. rewrite !repeat_length. lia.
Qed.
Lemma cell_place pad w x a j b : (forall i, In i (a ++ j :: b) -> zlen (nth i x []) <= w i) ->
  sub (line pad w x (a ++ j :: b)) (width_of pad w a + Z.of_nat pad) (width_of pad w a + Z.of_nat pad + zlen (nth j x [])) = nth j x [].
Proof.
  intros H. unfold line. rewrite flat_map_app. cbn [flat_map]. fold (line pad w x a). fold (line pad w x b).
  assert (La : zlen (line pad w x a) = width_of pad w a) by (apply width_line; intros i Hi; apply H; apply in_or_app; left; exact Hi).
  unfold slot. rewrite <- !app_assoc. rewrite app_assoc. set (pre := line pad w x a ++ repeat 32%N pad).
  assert (Lp : zlen pre = width_of pad w a + Z.of_nat pad) by (unfold pre; rewrite zlen_app, La; unfold zlen; rewrite repeat_length; reflexivity).
  rewrite <- Lp. unfold sub. unfold zlen. rewrite Nat2Z.id. rewrite skipn_app, skipn_all, Nat.sub_diag. cbn [app skipn].
  replace (Z.to_nat (Z.of_nat (length pre) + Z.of_nat (length (nth j x [])) - Z.of_nat (length pre))) with (length (nth j x [])) by lia.
  rewrite firstn_app, Nat.sub_diag, firstn_all. cbn [firstn]. apply app_nil_r.
Qed.
Lemma short_row o t hd r : limits o -> (o_width o = None \/ o_display o <> None) -> o_rows o = None -> t_header t = Some hd -> In r (t_body t) ->
  (length (r_elems r) < length (r_elems hd))%nat -> text_lines o t = Err IndexError.
Proof.
  intros L H Rn Eh Hr Sh. unfold text_lines, compile. rewrite Eh. destruct (format_total o hd 0 L H) as (headers & Fh & Lh). rewrite Fh. cbn [rbind].
  set (fmt := fun x : option (Z * row) => match x with None => Ok None | Some (i, r) => let* l := format_text o r i in Ok (Some l) end).
  assert (M : exists rows, mapM fmt (shown_rows o (t_body t)) = Ok rows).
  { apply mapM_total. intros [[i q]|] _; [|exists None; reflexivity]. destruct (format_total o q i L H) as (l & F & _). exists (Some l). cbn. rewrite F. reflexivity. }
  destruct M as (rows & M). rewrite M. cbn [rbind].
  assert (R : exists l, In (Some l) rows /\ (length l < length headers)%nat).
  { apply In_nth_error in Hr. destruct Hr as (p & Ep). assert (Lp : (p < length (t_body t))%nat) by (apply nth_error_Some; congruence).
    destruct (forall2_nth _ _ _ (mapM_forall2 _ _ _ M) p (Some (Z.of_nat p, r))) as (y & Ey & Fy).
    { unfold shown_rows. rewrite Rn. apply map_nth_error. apply combine_nth; [apply zrange_nth, Lp|exact Ep]. }
    cbn in Fy. destruct (format_total o r (Z.of_nat p) L H) as (l & F & Ll). rewrite F in Fy. cbn [rbind] in Fy. injection Fy as <-.
    exists l. split; [eapply nth_error_In, Ey|lia]. }
  destruct R as (l & Hl & Ll).
  assert (C : forall j q, column_width rows j = q -> match q with Ok _ => True | Err e => e = IndexError end).
  { clear. intros j. induction rows as [|x rows IH]; intros q; cbn [column_width]; [intros <-; exact Logic.I|]. destruct x as [l|]; [|apply IH].
    destruct (nth_error l j); [|intros <-; reflexivity]. destruct (column_width rows j) as [m|e]; cbn [rbind]; intros <-; [exact Logic.I|apply (IH _ eq_refl)]. }
  assert (B : column_width rows (length l) = Err IndexError).
  { clear -Hl C. pose proof (C (length l)) as C1. clear C. revert C1. induction rows as [|x rows IH]; [destruct Hl|]. intros C1. destruct Hl as [->|Hl].
    - cbn [column_width]. replace (nth_error l (length l)) with (@None pystr) by (symmetry; apply nth_error_None; lia). reflexivity.
    - specialize (C1 _ eq_refl). destruct (column_width (x :: rows) (length l)) as [m|e] eqn:E; [|congruence].
      apply column_ok in E. destruct E as (_ & E & _). destruct (E l (or_intror Hl)) as [E1 _]. lia. }
  unfold actual_widths.
  assert (G : forall js, In (length l) js -> mapM (column_width rows) js = Err IndexError).
  { induction js as [|j js IH]; intros Hj; [destruct Hj|]. cbn [mapM]. destruct Hj as [->|Hj]; [rewrite B; reflexivity|].
    pose proof (C j _ eq_refl) as Cj. destruct (column_width rows j) as [m|e]; [|cbn [rbind]; congruence]. cbn [rbind]. rewrite IH by exact Hj. reflexivity. }
  rewrite G; [reflexivity|]. apply in_seq. lia.
Qed.

(** ** Links *)
Lemma split_some w p : ~ In 58%N w -> split_colon (w ++ 58%N :: p) = (w, Some p).
Proof.
  induction w as [|c w IH]; intros H; [reflexivity|]. cbn [app split_colon]. destruct (N.eqb_spec c 58) as [->|]; [exfalso; apply H; left; reflexivity|].
  rewrite IH; [reflexivity|]. intros X. apply H. right. exact X.
Qed.
Lemma split_none w : ~ In 58%N w -> split_colon w = (w, None).
Proof.
  induction w as [|c w IH]; intros H; [reflexivity|]. cbn [split_colon]. destruct (N.eqb_spec c 58) as [->|]; [exfalso; apply H; left; reflexivity|].
  rewrite IH; [reflexivity|]. intros X. apply H. right. exact X.
Qed.
Lemma split_inv x a b : split_colon x = (a, Some b) -> x = a ++ 58%N :: b.
Proof.
  revert a. induction x as [|c x IH]; intros a; cbn [split_colon]; [discriminate|]. destruct (N.eqb_spec c 58) as [->|].
  - intros E. injection E as <- <-. reflexivity.
  - destruct (split_colon x) as [u v]. intros E. injection E as <- ->. cbn. f_equal. apply IH. reflexivity.
Qed.
Lemma urn_some iw w p : w <> [] -> forallb iw w = true -> ~ In 58%N w -> p <> [] -> ~ In 10%N p ->
  urn_parts iw (s "urn:" ++ w ++ 58%N :: p) = Some (w, p).
Proof.
  intros W F C P L. unfold urn_parts. change (s "urn:" ++ w ++ 58%N :: p) with (s "urn" ++ 58%N :: (w ++ 58%N :: p)).
  rewrite split_some by (cbn; intuition discriminate). cbv beta iota. change (str_eqb (s "urn") (s "urn")) with true. cbv iota. rewrite split_some by exact C.
  rewrite F. destruct w; [contradiction|]. destruct p as [|c p]; [contradiction|]. cbn [length Nat.eqb negb andb].
  replace (forallb (fun c0 => negb (c0 =? 10)%N) (c :: p)) with true; [reflexivity|]. symmetry. apply forallb_forall. intros d Hd.
  destruct (N.eqb_spec d 10) as [->|]; [contradiction|reflexivity].
Qed.
Lemma urn_inv iw x w p : urn_parts iw x = Some (w, p) -> x = s "urn:" ++ w ++ 58%N :: p.
Proof.
  unfold urn_parts. destruct (split_colon x) as [a [y|]] eqn:E; [|discriminate]. destruct (str_eqb a (s "urn")) eqn:A; [|discriminate].
  destruct (split_colon y) as [b [z|]] eqn:F; [|discriminate]. destruct (_ && _ && _ && _); [|discriminate]. intros X. injection X as <- <-.
  apply split_inv in E, F. apply str_eqb_eq in A. subst. reflexivity.
Qed.
Lemma link_wikidata iw lo o w p y : w <> [] -> forallb iw w = true -> ~ In 58%N w -> p <> [] -> ~ In 10%N p ->
  lo w = s "wikidata" -> truncate o (s "urn:" ++ w ++ 58%N :: p) = Ok y ->
  html_cell iw lo o (CStr (s "urn:" ++ w ++ 58%N :: p)) = Ok (s "<a href='" ++ (s "https://www.wikidata.org/wiki/" ++ escape p) ++ s "'>" ++ escape y ++ s "</a>").
Proof.
  intros W F C P L Lo T. cbn [html_cell]. rewrite urn_some by assumption. rewrite Lo. unfold urn_link. change (str_eqb (s "wikidata") (s "wikidata")) with true. cbv iota.
  cbn [rbind]. rewrite T. reflexivity.
Qed.
Lemma link_wikipedia iw lo o w a b y : w <> [] -> forallb iw w = true -> ~ In 58%N w -> ~ In 58%N a -> ~ In 10%N (a ++ 58%N :: b) ->
  lo w = s "wikipedia" -> truncate o (s "urn:" ++ w ++ 58%N :: a ++ 58%N :: b) = Ok y ->
  html_cell iw lo o (CStr (s "urn:" ++ w ++ 58%N :: a ++ 58%N :: b)) =
  Ok (s "<a href='" ++ (s "https://" ++ escape a ++ s ".wikipedia.org/wiki/" ++ escape b) ++ s "'>" ++ escape y ++ s "</a>").
Proof.
  intros W F C Ca L Lo T. cbn [html_cell]. rewrite urn_some by (try assumption; destruct a; discriminate). rewrite Lo. unfold urn_link.
  change (str_eqb (s "wikipedia") (s "wikidata")) with false. change (str_eqb (s "wikipedia") (s "wikipedia")) with true. cbv iota. rewrite split_some by exact Ca. cbv iota beta.
  cbn [rbind]. rewrite T. reflexivity.
Qed.
Lemma cell_plain iw lo o c x : plain_cell c -> (forall w p, c <> CStr (s "urn:" ++ w ++ 58%N :: p)) -> html_cell iw lo o c = Ok x ->
  exists y, truncate o (cell_text c) = Ok y /\ stands_for x y.
Proof.
  intros P N. destruct c as [a b|a|a]; [destruct P|..]; cbn [html_cell cell_text].
  - destruct (urn_parts iw a) as [[w p]|] eqn:U; [apply urn_inv in U; subst; exfalso; exact (N w p eq_refl)|].
    destruct (truncate o a) as [y|]; [|discriminate]. cbn [rbind]. intros E. apply Ok_inj in E. subst. exists y. split; [reflexivity|apply escape_ok].
  - destruct (truncate o a) as [y|]; [|discriminate]. cbn [rbind]. intros E. apply Ok_inj in E. subst. exists y. split; [reflexivity|apply escape_ok].
Qed.
Lemma cell_any iw lo o c x : plain_cell c -> html_cell iw lo o c = Ok x ->
  exists y, truncate o (cell_text c) = Ok y /\
  (stands_for x y \/ exists u v z, stands_for u v /\ stands_for z y /\ x = s "<a href='" ++ u ++ s "'>" ++ z ++ s "</a>").
Proof.
  intros P E. destruct (cell_cases _ _ _ _ _ P E) as (y & T & [->|(u & v & H & ->)]); exists y; (split; [exact T|]).
  - left. apply escape_ok.
  - right. exists u, v, (escape y). split; [exact H|]. split; [apply escape_ok|reflexivity].
Qed.
