(** A reader for the texts of XML: every text of a tree is read as that tree. *)
From Verif Require Import PyBase PyBaseFacts Spec_XmlString Spec_Xml Spec_XmlText.
From Coq Require Import Lia.
Local Open Scope N_scope.

Fixpoint span (p : N -> bool) (x : pystr) : pystr * pystr :=
  match x with c :: r => if p c then let (a, b) := span p r in (c :: a, b) else ([], x) | [] => ([], []) end.
Definition stops (p : N -> bool) (r : pystr) : Prop := match r with c :: _ => p c = false | [] => True end.
Lemma span_app p x r : Forall (fun c => p c = true) x -> stops p r -> span p (x ++ r) = (x, r).
Proof.
  induction 1 as [|c x Hc Hx IH]; intros Hr; cbn [app span].
  - destruct r; [reflexivity|]. cbn [span]. cbn in Hr. rewrite Hr. reflexivity.
  - rewrite Hc, IH by exact Hr. reflexivity.
Qed.

Definition inb (l : list (N * N)) (c : N) : bool := existsb (fun p => (fst p <=? c) && (c <=? snd p)) l.
Lemma inb_iff l c : inb l c = true <-> between c l.
Proof.
  unfold inb, between. rewrite existsb_exists. split; intros (p & H & E); exists p; (split; [exact H|]).
  - apply andb_prop in E. destruct E as [E1 E2]. apply N.leb_le in E1, E2. lia.
  - apply andb_true_intro. split; apply N.leb_le; lia.
Qed.
Definition startb := inb name_start_ranges.
Definition nameb := inb name_ranges.
Lemma start_name c : startb c = true -> nameb c = true.
Proof. unfold startb, nameb, inb, name_ranges. rewrite existsb_app. intros ->. reflexivity. Qed.
Definition read_name (x : pystr) : option (pystr * pystr) :=
  match span nameb x with (c :: n, r) => if startb c then Some (c :: n, r) else None | _ => None end.
Lemma read_name_ok x r : ncname x -> stops nameb r -> read_name (x ++ r) = Some (x, r).
Proof.
  unfold read_name. destruct x as [|c x]; [intros []|]. intros [Hc Hx] Hr. apply inb_iff in Hc. fold startb in Hc.
  rewrite span_app; [rewrite Hc; reflexivity| |exact Hr]. constructor; [apply start_name; exact Hc|].
  eapply Forall_impl; [|exact Hx]. intros a Ha. apply inb_iff. exact Ha.
Qed.

Definition blankb (c : N) : bool := (c =? 32) || (c =? 9) || (c =? 10).
Lemma blank_all x : blank x -> Forall (fun c => blankb c = true) x.
Proof. apply Forall_impl. intros c [->| [->| ->]]; reflexivity. Qed.
Definition skip (x : pystr) : pystr := snd (span blankb x).
Lemma skip_app w r : blank w -> stops blankb r -> skip (w ++ r) = r.
Proof. intros Hw Hr. unfold skip. rewrite span_app; [reflexivity|apply blank_all; exact Hw|exact Hr]. Qed.

(** ** attribute values *)
Definition xml_charb (c : N) : bool := inb [(9, 10); (13, 13); (32, 55295); (57344, 65533); (65536, 1114111)] c.
Lemma xml_charb_ok c : xml_char c -> xml_charb c = true.
Proof.
  intros H. apply inb_iff. unfold between. destruct H as [->|[->|[->|[H|[H|H]]]]].
  1, 2: exists (9, 10); split; [left; reflexivity|cbn; lia].
  1: exists (13, 13); split; [right; left; reflexivity|cbn; lia].
  1: exists (32, 55295); split; [do 2 right; left; reflexivity|cbn; lia].
  1: exists (57344, 65533); split; [do 3 right; left; reflexivity|cbn; lia].
  exists (65536, 1114111); split; [do 4 right; left; reflexivity|cbn; lia].
Qed.
Definition hexval (c : N) : option N :=
  if (48 <=? c) && (c <=? 57) then Some (c - 48) else if (65 <=? c) && (c <=? 70) then Some (c - 55) else if (97 <=? c) && (c <=? 102) then Some (c - 87) else None.
Definition decval (c : N) : option N := if (48 <=? c) && (c <=? 57) then Some (c - 48) else None.
Definition step (base : N) (val : N -> option N) (a : option N) (c : N) : option N :=
  match a, val c with Some k, Some d => Some (base * k + d) | _, _ => None end.
Definition read_number (base : N) (val : N -> option N) (x : pystr) : option N := match x with [] => None | _ => fold_left (step base val) x (Some 0) end.
Lemma read_number_ok base val (digit : N -> N -> Prop) : (forall c d, digit c d -> val c = Some d) -> forall k x, number base digit k x -> x <> [] /\ fold_left (step base val) x (Some 0) = Some k.
Proof.
  intros Hd k x H. induction H as [c d E|k x c d H [IHn IH] E].
  - split; [discriminate|]. cbn [fold_left]. unfold step. rewrite (Hd c d E). f_equal. lia.
  - split; [intros E0; apply app_eq_nil in E0; destruct E0; discriminate|]. rewrite fold_left_app, IH. cbn [fold_left]. unfold step. rewrite (Hd c d E). reflexivity.
Qed.
Lemma decval_ok c d : 48 <= c <= 57 /\ d = c - 48 -> decval c = Some d.
Proof. intros [H ->]. unfold decval. destruct (48 <=? c) eqn:E1; [|apply N.leb_gt in E1; lia]. destruct (c <=? 57) eqn:E2; [reflexivity|apply N.leb_gt in E2; lia]. Qed.
Lemma hexval_ok c d : hex_digit c d -> hexval c = Some d.
Proof.
  unfold hexval. intros [[H ->]|[[H ->]|[H ->]]]; repeat (match goal with |- context [?a <=? ?b] => destruct (a <=? b) eqn:?; try (rewrite N.leb_gt in *; lia); try (rewrite N.leb_le in *) end; cbn [andb]; try reflexivity; try lia).
Qed.
Definition in_xml (o : option N) : option N := match o with Some c => if xml_charb c then Some c else None | None => None end.
Definition read_ref (b : pystr) : option N :=
  if str_eqb b (s "amp") then Some 38 else if str_eqb b (s "lt") then Some 60 else if str_eqb b (s "gt") then Some 62
  else if str_eqb b (s "quot") then Some 34 else if str_eqb b (s "apos") then Some 39
  else match b with
       | 35 :: 120 :: x => in_xml (read_number 16 hexval x)
       | 35 :: x => in_xml (read_number 10 decval x)
       | _ => None
       end.
Lemma number_digits base digit k x : number base digit k x -> Forall (fun c => exists d, digit c d) x.
Proof. induction 1 as [c d E|k x c d H IH E]; [repeat constructor; exists d; exact E|]. apply Forall_app. split; [exact IH|]. repeat constructor. exists d. exact E. Qed.
Lemma dec_hash x : Forall (fun c => exists d, 48 <= c <= 57 /\ d = c - 48) x -> read_ref (35 :: x) = in_xml (read_number 10 decval x).
Proof.
  intros H. unfold read_ref. change (s "amp") with [97; 109; 112]. change (s "lt") with [108; 116]. change (s "gt") with [103; 116].
  change (s "quot") with [113; 117; 111; 116]. change (s "apos") with [97; 112; 111; 115]. cbn [str_eqb N.eqb Pos.eqb andb].
  destruct H as [|c x (d & Hc & _) Hx]; [reflexivity|]. destruct (N.eq_dec c 120) as [->|Hn]; [lia|].
  destruct c as [|p]; [reflexivity|]. do 7 (destruct p as [p|p|]; try reflexivity). congruence.
Qed.
Lemma read_ref_ok c b : reference c b -> read_ref b = Some c.
Proof.
  destruct 1 as [| | | | |c x H Hc|c x H Hc]; try reflexivity.
  - change (s "#" ++ x) with (35 :: x). rewrite dec_hash by (apply (number_digits _ _ _ _ H)).
    destruct (read_number_ok _ decval _ decval_ok _ _ H) as [Hn E]. unfold read_number. destruct x; [congruence|]. rewrite E. cbn [in_xml]. rewrite xml_charb_ok by exact Hc. reflexivity.
  - change (s "#x" ++ x) with (35 :: 120 :: x).
    change (read_ref (35 :: 120 :: x)) with (in_xml (read_number 16 hexval x)).
    destruct (read_number_ok _ hexval _ hexval_ok _ _ H) as [Hn E]. unfold read_number. destruct x; [congruence|]. rewrite E. cbn [in_xml]. rewrite xml_charb_ok by exact Hc. reflexivity.
Qed.
Definition body_char (c : N) : bool := negb (c =? 59).
Lemma reference_body c b : reference c b -> Forall (fun c => body_char c = true) b.
Proof.
  assert (E : forall c, c <> 59 -> body_char c = true) by (intros e He; unfold body_char; apply negb_true_iff, N.eqb_neq; exact He).
  destruct 1 as [| | | | |c x H Hc|c x H Hc]; try (repeat constructor; reflexivity).
  - constructor; [reflexivity|]. eapply Forall_impl; [|apply (number_digits _ _ _ _ H)]. intros a (d & Ha & _). apply E. lia.
  - constructor; [reflexivity|]. constructor; [reflexivity|]. eapply Forall_impl; [|apply (number_digits _ _ _ _ H)]. intros a (d & Ha). apply E. destruct Ha as [[Ha _]|[[Ha _]|[Ha _]]]; lia.
Qed.
Definition push (c : N) (o : option (pystr * pystr)) : option (pystr * pystr) := match o with Some (v, r) => Some (c :: v, r) | None => None end.
Fixpoint read_value (f : nat) (q : N) (x : pystr) : option (pystr * pystr) :=
  match f, x with
  | S f, c :: r =>
      if c =? q then Some ([], r)
      else if c =? 38 then
        match span body_char r with
        | (b, 59 :: r1) => match read_ref b with Some d => push d (read_value f q r1) | None => None end
        | _ => None
        end
      else if c =? 60 then None
      else if (c =? 9) || (c =? 10) then push 32 (read_value f q r)
      else if (32 <=? c) && xml_charb c then push c (read_value f q r)
      else None
  | _, _ => None
  end.
Lemma read_value_ok q v x : q = 34 \/ q = 39 -> att_value q v x -> forall f r, (length x < f)%nat -> read_value f q (x ++ [q] ++ r) = Some (v, r).
Proof.
  intros Hq H. assert (Hq38 : q <> 38 /\ q <> 9 /\ q <> 10) by (destruct Hq as [->| ->]; repeat split; discriminate).
  induction H as [|c v x Hc H32 H38 H60 Hcq H IH|c v x Hc H IH|c b v x Hc H IH]; intros f r Hf; (destruct f as [|f]; [cbn in Hf; lia|]).
  - cbn [app read_value]. rewrite N.eqb_refl. reflexivity.
  - cbn [app read_value]. apply N.eqb_neq in Hcq, H38, H60. rewrite Hcq, H38, H60.
    replace (c =? 9) with false by (symmetry; apply N.eqb_neq; lia). replace (c =? 10) with false by (symmetry; apply N.eqb_neq; lia). cbn [orb].
    rewrite (proj2 (N.leb_le 32 c) H32), (xml_charb_ok c Hc). cbn [andb]. cbn in Hf. specialize (IH f r). cbn [app] in IH. rewrite IH by lia. reflexivity.
  - cbn [app read_value]. cbn in Hf. specialize (IH f r). cbn [app] in IH. destruct Hq38 as (_ & H9 & H10).
    destruct Hc as [->| ->]; (destruct (_ =? q) eqn:Eq; [apply N.eqb_eq in Eq; congruence|]); cbn [N.eqb Pos.eqb orb]; rewrite IH by lia; reflexivity.
  - change ((s "&" ++ b ++ s ";" ++ x) ++ [q] ++ r) with (38 :: (b ++ s ";" ++ x) ++ [q] ++ r). cbn [read_value].
    destruct (38 =? q) eqn:Eq; [apply N.eqb_eq in Eq; destruct Hq38; congruence|]. cbn [N.eqb Pos.eqb].
    replace ((b ++ s ";" ++ x) ++ [q] ++ r) with (b ++ 59 :: x ++ [q] ++ r) by (rewrite <- !app_assoc; reflexivity).
    rewrite span_app; [|apply (reference_body _ _ Hc)|reflexivity]. rewrite (read_ref_ok _ _ Hc).
    rewrite (IH f r); [reflexivity|]. rewrite !app_length in Hf. cbn in Hf. lia.
Qed.

(** ** attributes *)
Definition read_attr_name (x : pystr) : option (pystr * pystr) :=
  match read_name x with
  | Some (n, 58 :: r) => if str_eqb n (s "xml") then match read_name r with Some (m, r1) => Some (s "{http://www.w3.org/XML/1998/namespace}" ++ m, r1) | None => None end else None
  | Some (n, r) => if str_eqb n (s "xmlns") then None else Some (n, r)
  | None => None
  end.
Definition after_name (r : pystr) : Prop := match r with c :: _ => c = 32 \/ c = 9 \/ c = 10 \/ c = 61 | [] => False end.
Lemma after_stops r : after_name r -> stops nameb r /\ (forall y, r <> 58 :: y).
Proof. destruct r as [|c r]; [intros []|]. cbn. intros [->|[->|[->| ->]]]; (split; [vm_compute; reflexivity|intros y; discriminate]). Qed.
Lemma read_attr_name_ok k n r : attr_name k n -> after_name r -> read_attr_name (n ++ r) = Some (k, r).
Proof.
  intros H Hr. apply after_stops in Hr. destruct Hr as [Hr Hc]. unfold read_attr_name. destruct H as [x Hx Hn|x Hx].
  - rewrite (read_name_ok x r Hx Hr). assert (E : str_eqb x (s "xmlns") = false) by (destruct (str_eqb_spec x (s "xmlns")); congruence). rewrite E.
    destruct r as [|c r]; [reflexivity|]. destruct (N.eq_dec c 58) as [->|Hn']; [exfalso; apply (Hc r); reflexivity|].
    destruct c as [|p]; [reflexivity|]. do 6 (destruct p as [p|p|]; try reflexivity). congruence.
  - rewrite <- app_assoc. change (s "xml:" ++ x ++ r) with (s "xml" ++ 58 :: x ++ r). rewrite (read_name_ok (s "xml")).
    + cbn [str_eqb]. rewrite str_eqb_refl. rewrite (read_name_ok x r Hx Hr). reflexivity.
    + cbn. split; [apply inb_iff; reflexivity|]. repeat constructor; apply inb_iff; reflexivity.
    + vm_compute. reflexivity.
Qed.
Fixpoint read_attrs (f : nat) (x : pystr) : option (dict pystr * pystr) :=
  match f with
  | O => None
  | S f =>
      let (w, r) := span blankb x in
      match r with
      | 47 :: _ | 62 :: _ => Some ([], r)
      | _ =>
          match w with
          | [] => None
          | _ => match read_attr_name r with
                 | Some (k, r1) =>
                     match skip r1 with
                     | 61 :: r2 => match skip r2 with
                                   | q :: r3 => if (q =? 34) || (q =? 39)
                                                then match read_value (length r3) q r3 with
                                                     | Some (v, r4) => match read_attrs f r4 with Some (d, r5) => Some ((k, v) :: d, r5) | None => None end
                                                     | None => None
                                                     end
                                                else None
                                   | [] => None
                                   end
                     | _ => None
                     end
                 | None => None
                 end
          end
      end
  end.
Definition tag_end (r : pystr) : Prop := match r with c :: _ => c = 47 \/ c = 62 | [] => False end.
Lemma blank_after w r : blank w -> after_name (w ++ 61 :: r).
Proof. destruct 1 as [|c w Hc Hw]; cbn; tauto. Qed.
Lemma quote_stops q r : q = 34 \/ q = 39 -> stops blankb (q :: r).
Proof. intros [->| ->]; reflexivity. Qed.
Lemma name_head x : ncname x -> exists c r, x = c :: r /\ startb c = true.
Proof. destruct x as [|c r]; [intros []|]. intros [H _]. exists c, r. split; [reflexivity|]. apply inb_iff. exact H. Qed.
Lemma start_not c : startb c = true -> c <> 47 /\ c <> 62 /\ blankb c = false.
Proof.
  intros H. repeat split; try (intros ->; vm_compute in H; discriminate).
  unfold blankb. destruct (c =? 32) eqn:E1; [apply N.eqb_eq in E1; subst; vm_compute in H; discriminate|].
  destruct (c =? 9) eqn:E2; [apply N.eqb_eq in E2; subst; vm_compute in H; discriminate|].
  destruct (c =? 10) eqn:E3; [apply N.eqb_eq in E3; subst; vm_compute in H; discriminate|]. reflexivity.
Qed.
Lemma attr_head k n : attr_name k n -> exists c r, n = c :: r /\ startb c = true.
Proof. destruct 1 as [x H _|x H]; [exact (name_head x H)|]. exists 120, (s "ml:" ++ x). split; [reflexivity|]. vm_compute. reflexivity. Qed.
Lemma read_attrs_ok d x : attributes d x -> forall f w r, (length d < f)%nat -> blank w -> tag_end r -> read_attrs f (x ++ w ++ r) = Some (d, r).
Proof.
  induction 1 as [|w0 k n w1 w2 q v x d y Hw0 Hw0' Hk Hw1 Hw2 Hq Hv Hd IH]; intros f w r Hf Hw Hr; (destruct f as [|f]; [cbn in Hf; lia|]).
  - cbn [app read_attrs]. rewrite span_app; [|apply blank_all; exact Hw|destruct r; [exact I|destruct Hr as [->| ->]; reflexivity]].
    destruct r as [|c r]; [destruct Hr|]. destruct Hr as [->| ->]; reflexivity.
  - destruct (attr_head _ _ Hk) as (c & n' & En & Hc). destruct (start_not c Hc) as (H47 & H62 & Hb).
    replace ((w0 ++ n ++ w1 ++ s "=" ++ w2 ++ [q] ++ x ++ [q] ++ y) ++ w ++ r) with (w0 ++ n ++ w1 ++ 61 :: w2 ++ q :: x ++ [q] ++ y ++ w ++ r)
      by (rewrite <- !app_assoc; cbn [app s]; reflexivity).
    cbn [read_attrs]. rewrite span_app; [|apply blank_all; exact Hw0|rewrite En; exact Hb].
    destruct w0 as [|c0 w0]; [congruence|].
    rewrite (read_attr_name_ok k n _ Hk (blank_after w1 _ Hw1)). rewrite (skip_app w1 _ Hw1) by reflexivity.
    rewrite (skip_app w2 _ Hw2) by (apply quote_stops; exact Hq).
    replace ((q =? 34) || (q =? 39)) with true by (destruct Hq as [->| ->]; reflexivity).
    rewrite (read_value_ok q v x Hq Hv) by (rewrite !app_length; cbn [length]; lia).
    rewrite (IH f w r); [|cbn in Hf; lia|exact Hw|exact Hr].
    rewrite En. cbn [app]. clear - H47 H62. destruct c as [|p]; [reflexivity|]. do 6 (destruct p as [p|p|]; try reflexivity); congruence.
Qed.

(** ** elements *)
Fixpoint nodupb (l : list pystr) : bool := match l with [] => true | x :: r => negb (existsb (str_eqb x) r) && nodupb r end.
Lemma nodupb_complete l : NoDup l -> nodupb l = true.
Proof.
  induction 1 as [|x l Hx Hl IH]; [reflexivity|]. cbn [nodupb]. rewrite IH. destruct (existsb (str_eqb x) l) eqn:E; [|reflexivity].
  exfalso. apply Hx. apply existsb_exists in E. destruct E as (y & Hy & E). destruct (str_eqb_spec x y); congruence.
Qed.
Fixpoint read_element (f : nat) (x : pystr) : option (xml * pystr) :=
  match f, x with
  | S f, 60 :: r =>
      match read_name r with
      | Some (t, r1) =>
          match read_attrs (S (length r1)) r1 with
          | Some (d, r2) =>
              if nodupb (dkeys d) then
                match r2 with
                | 47 :: 62 :: r3 => Some (Elem t d [], r3)
                | 62 :: r3 =>
                    match read_content f r3 with
                    | Some (kids, 60 :: 47 :: r4) =>
                        match read_name r4 with
                        | Some (t', r5) => if str_eqb t' t then match skip r5 with 62 :: r6 => Some (Elem t d kids, r6) | _ => None end else None
                        | None => None
                        end
                    | _ => None
                    end
                | _ => None
                end
              else None
          | None => None
          end
      | None => None
      end
  | _, _ => None
  end
with read_content (f : nat) (x : pystr) : option (list xml * pystr) :=
  match f with
  | O => None
  | S f =>
      match x with
      | 60 :: 47 :: _ => Some ([], x)
      | _ => match read_element f x with
             | Some (e, r) => match read_content f r with Some (l, r1) => Some (e :: l, r1) | None => None end
             | None => None
             end
      end
  end.
Definition read_document (x : pystr) : option xml :=
  let y := skip x in
  match read_element (2 * length y) y with Some (e, r) => match skip r with [] => Some e | _ => None end | None => None end.

Scheme element_mut := Minimality for element Sort Prop with content_mut := Minimality for content Sort Prop.
Lemma attrs_name_end d x w c r : attributes d x -> blank w -> c = 47 \/ c = 62 -> stops nameb (x ++ w ++ c :: r).
Proof.
  assert (B : forall a y, a = 32 \/ a = 9 \/ a = 10 -> stops nameb (a :: y)) by (intros a y [->|[->| ->]]; vm_compute; reflexivity).
  destruct 1 as [|w0 k n w1 w2 q v x d y Hw0 Hw0' Hk Hw1 Hw2 Hq Hv Hd]; intros Hw Hc.
  - destruct Hw as [|a w Ha Hw]; [destruct Hc as [->| ->]; vm_compute; reflexivity|apply B; exact Ha].
  - destruct Hw0 as [|a w0 Ha Hw0]; [congruence|]. apply B. exact Ha.
Qed.
Lemma attrs_length d x : attributes d x -> (length d <= length x)%nat.
Proof. induction 1 as [|w0 k n w1 w2 q v x d y Hw0 Hw0' Hk Hw1 Hw2 Hq Hv Hd IH]; [apply Nat.le_refl|]. rewrite !app_length. cbn [length s]. destruct w0; [congruence|]. cbn [length]. lia. Qed.
Lemma element_head e x : element e x -> exists c y, x = 60 :: c :: y /\ startb c = true.
Proof.
  destruct 1 as [t d x w Ht Hd Hn Hw|t d x w kids y w1 Ht Hd Hn Hw Hk Hw1]; destruct (name_head t Ht) as (c & r & -> & Hc); exists c; eexists; (split; [|exact Hc]); cbn [s app]; reflexivity.
Qed.
Lemma read_element_ok : forall e x, element e x -> forall f r, (2 * length x <= f)%nat -> read_element f (x ++ r) = Some (e, r).
Proof.
  apply (element_mut (fun e x => forall f r, (2 * length x <= f)%nat -> read_element f (x ++ r) = Some (e, r))
                     (fun l y => forall f r, (2 * length y < f)%nat -> read_content f (y ++ 60 :: 47 :: r) = Some (l, 60 :: 47 :: r))).
  - intros t d x w Ht Hd Hn Hw f r Hf.
    replace ((s "<" ++ t ++ x ++ w ++ s "/>") ++ r) with (60 :: t ++ x ++ w ++ 47 :: 62 :: r) by (rewrite <- !app_assoc; reflexivity).
    rewrite !app_length in Hf. cbn [s length] in Hf. destruct f as [|f]; [cbn in Hf; lia|].
    cbn [read_element]. rewrite (read_name_ok t) by (exact Ht || (eapply attrs_name_end; eauto)).
    rewrite (read_attrs_ok d x Hd _ w (47 :: 62 :: r)); [|pose proof (attrs_length d x Hd); rewrite !app_length; lia|exact Hw|left; reflexivity].
    rewrite (nodupb_complete _ Hn). reflexivity.
  - intros t d x w kids y w1 Ht Hd Hn Hw Hk IH Hw1 f r Hf.
    replace ((s "<" ++ t ++ x ++ w ++ s ">" ++ y ++ s "</" ++ t ++ w1 ++ s ">") ++ r) with (60 :: t ++ x ++ w ++ 62 :: y ++ 60 :: 47 :: t ++ w1 ++ 62 :: r) by (repeat (cbn [app]; rewrite <- ?app_assoc); reflexivity).
    rewrite !app_length in Hf. cbn [s length] in Hf. destruct f as [|f]; [cbn in Hf; lia|].
    cbn [read_element]. rewrite (read_name_ok t) by (exact Ht || (eapply attrs_name_end; eauto)).
    rewrite (read_attrs_ok d x Hd _ w (62 :: y ++ 60 :: 47 :: t ++ w1 ++ 62 :: r)); [|pose proof (attrs_length d x Hd); rewrite !app_length; lia|exact Hw|right; reflexivity].
    rewrite (nodupb_complete _ Hn). rewrite IH by (cbn [length] in Hf; lia).
    rewrite (read_name_ok t); [|exact Ht|]. 2:{ destruct Hw1 as [|a w1 Ha Hw1]; [vm_compute; reflexivity|]. destruct Ha as [->|[->| ->]]; vm_compute; reflexivity. }
    rewrite str_eqb_refl. rewrite (skip_app w1) by (exact Hw1 || reflexivity). reflexivity.
  - intros f r Hf. destruct f as [|f]; [lia|]. reflexivity.
  - intros e x l y He IHe Hl IHl f r Hf. destruct f as [|f]; [lia|]. rewrite app_length in Hf.
    destruct (element_head e x He) as (c & x' & Ex & Hc). destruct (start_not c Hc) as (H47 & _ & _).
    assert (Hx : (0 < length x)%nat) by (rewrite Ex; cbn; lia).
    rewrite <- app_assoc. cbn [read_content].
    specialize (IHe f (y ++ 60 :: 47 :: r)). specialize (IHl f r). rewrite IHe by lia. rewrite IHl by lia.
    rewrite Ex. cbn [app]. destruct c as [|p]; [reflexivity|]. do 6 (destruct p as [p|p|]; try reflexivity). congruence.
Qed.
Lemma read_document_ok e x : xml_document e x -> read_document x = Some e.
Proof.
  intros (a & b & y & Ha & Hb & He & ->). unfold read_document.
  destruct (element_head e y He) as (c & y' & Ey & _).
  rewrite (skip_app a); [|exact Ha|rewrite Ey; reflexivity].
  rewrite (read_element_ok e y He) by (rewrite app_length; lia).
  replace (skip b) with (@nil N); [reflexivity|]. rewrite <- (app_nil_r b). rewrite skip_app; [reflexivity|exact Hb|exact I].
Qed.
Theorem xml_unique e e' x : xml_document e x -> xml_document e' x -> e = e'.
Proof. intros H H'. apply read_document_ok in H, H'. congruence. Qed.
Theorem no_document x : read_document x = None -> ~ exists e, xml_document e x.
Proof. intros H (e & He). apply read_document_ok in He. congruence. Qed.
