(** json.loads accepts exactly the texts of the grammar: values. *)
From Verif Require Import PyBase PyBaseFacts Model_Msgpack Model_JsonText Spec_Printout Spec_JsonText Proof_JsonText.
From Verif Require Proof_Msgpack.
Local Open Scope N_scope.

(** ** The dict of the pairs *)
Lemma dset_absent {V} (d : dict V) k v : ~ In k (map fst d) -> dset d k v = d ++ [(k, v)].
Proof.
  induction d as [|[k' v'] d IH]; intros H; [reflexivity|]. cbn [dset]. destruct (str_eqb_spec k k') as [->|D]; [exfalso; apply H; left; reflexivity|].
  rewrite IH; [reflexivity|]. intros I. apply H. right. exact I.
Qed.
Lemma dset_again {V} (d1 d2 : dict V) k v v' : ~ In k (map fst d1) -> dset (d1 ++ (k, v) :: d2) k v' = d1 ++ (k, v') :: d2.
Proof.
  induction d1 as [|[k' w] d1 IH]; intros H; cbn [app dset].
  - rewrite str_eqb_refl. reflexivity.
  - destruct (str_eqb_spec k k') as [->|D]; [exfalso; apply H; left; reflexivity|]. rewrite IH; [reflexivity|]. intros I. apply H. right. exact I.
Qed.
Lemma dset_cases {V} (d : dict V) k : (~ In k (map fst d)) \/ exists d1 d2 w, d = d1 ++ (k, w) :: d2 /\ ~ In k (map fst d1).
Proof.
  induction d as [|[k' w] d IH]; [left; intros []|]. destruct (str_eqb_spec k k') as [->|D].
  - right. exists [], d, w. split; [reflexivity|intros []].
  - destruct IH as [H|(d1 & d2 & w' & -> & H)]; [left; intros [E|I]; [apply D; symmetry; exact E|exact (H I)]|].
    right. exists ((k', w) :: d1), d2, w'. split; [reflexivity|]. intros [E|I]; [apply D; symmetry; exact E|exact (H I)].
Qed.
Lemma dict_of_snoc l k v : dict_of (l ++ [(k, v)]) = dset (dict_of l) k v.
Proof. unfold dict_of. rewrite fold_left_app. reflexivity. Qed.
Lemma pairs_iff l d : pairs_dict l d <-> dict_of l = d.
Proof.
  split.
  - induction 1 as [|l d k v P IH N|l d1 d2 k v v' P IH N]; [reflexivity| |]; rewrite dict_of_snoc, IH; [apply dset_absent|apply dset_again]; exact N.
  - intros <-. induction l as [|[k v] l IH] using rev_ind; [constructor|]. rewrite dict_of_snoc. destruct (dset_cases (dict_of l) k) as [N|(d1 & d2 & w & E & N)].
    + rewrite (dset_absent _ _ _ N). constructor; assumption.
    + rewrite E in *. rewrite (dset_again _ _ _ _ _ N). econstructor; eassumption.
Qed.

(** ** Texts of the grammar are read *)
Scheme json_mut := Minimality for json Sort Prop with elements_mut := Minimality for elements Sort Prop with members_mut := Minimality for members Sort Prop.
Combined Scheme grammar_ind from json_mut, elements_mut, members_mut.
Lemma int_head a i : int_part a i -> exists c r, a = c :: r /\ (is_digit c \/ (c = 45 /\ exists d r', r = d :: r' /\ is_digit d)).
Proof.
  intros [H|(y & n & -> & H & _)]; destruct (natural_head _ _ H) as (c & r & -> & D).
  - exists c, r. auto.
  - exists 45, (c :: r). split; [reflexivity|]. right. eauto.
Qed.
Lemma number_head x : (exists i, int_part x i) \/ float_text x -> exists c r, x = c :: r /\ (is_digit c \/ (c = 45 /\ exists d r', r = d :: r' /\ is_digit d)).
Proof.
  intros [(i & H)|(a & i & fr & ex & H & _ & _ & _ & ->)]; [apply (int_head _ _ H)|]. destruct (int_head _ _ H) as (c & r & -> & D). exists c, (r ++ fr ++ ex). split; [reflexivity|].
  destruct D as [D|(-> & d & r' & -> & D)]; [left; exact D|right]. cbn [app]. eauto.
Qed.
Lemma constant_none l x : Forall (fun po => after (fst po) x = None) l -> constant l x = None.
Proof. induction 1 as [|[p o] l E _ IH]; [reflexivity|]. cbn [constant]. cbn [fst] in E. rewrite E. exact IH. Qed.
Lemma after_no a p b x : a <> b -> after (a :: p) (b :: x) = None.
Proof. intros D. cbn [after]. destruct (N.eqb_spec a b); [contradiction|reflexivity]. Qed.
Lemma not_constant c r y : (is_digit c \/ (c = 45 /\ exists d r', r = d :: r' /\ is_digit d)) -> constant constants (c :: r ++ y) = None.
Proof.
  intros H. apply constant_none. destruct H as [D|(-> & d & r' & -> & D)]; unfold is_digit in D.
  - unfold constants. repeat (apply Forall_cons; [|]); try apply Forall_nil; cbn [fst]; apply after_no; intros E; subst c; vm_compute in D; intuition congruence.
  - unfold constants. repeat (apply Forall_cons; [|]); try apply Forall_nil; cbn [fst]; try reflexivity. cbn [app]. change (after (s "-Infinity") (45 :: d :: r' ++ y)) with (after (s "Infinity") (d :: r' ++ y)).
    apply after_no. intros E. subst d. vm_compute in D. intuition congruence.
Qed.
Lemma value_number fparse f c r y : (is_digit c \/ (c = 45 /\ exists d r', r = d :: r' /\ is_digit d)) -> jvalue fparse (S f) ((c :: r) ++ y) = number fparse ((c :: r) ++ y).
Proof.
  intros H. cbn [app jvalue]. rewrite (not_constant c r y H). assert (D : c <> 34 /\ c <> 91 /\ c <> 123) by (unfold is_digit in H; lia).
  destruct (N.eqb_spec c 34); [lia|]. destruct (N.eqb_spec c 91); [lia|]. destruct (N.eqb_spec c 123); [lia|]. reflexivity.
Qed.
Definition starts (P : N -> Prop) (x : pystr) : Prop := exists c r, x = c :: r /\ P c.
Lemma json_head fparse x v : json fparse x v -> starts (fun c => is_ws c = false /\ c <> 93 /\ c <> 125) x.
Proof.
  assert (D : forall x, (exists i, int_part x i) \/ float_text x -> starts (fun c => is_ws c = false /\ c <> 93 /\ c <> 125) x).
  { intros y H. destruct (number_head y H) as (c & r & -> & K). exists c, r. split; [reflexivity|]. assert (E : is_digit c \/ c = 45) by tauto. unfold is_digit in E.
    split; [|lia]. destruct (is_ws c) eqn:W; [apply ws_iff in W; lia|reflexivity]. }
  intros H. destruct H; try (eexists _, _; split; [reflexivity|split; [reflexivity|split; discriminate]]).
  - apply D. left. eauto.
  - apply D. auto.
Qed.
Lemma skip_starts (P : N -> Prop) x y : starts (fun c => is_ws c = false /\ P c) x -> skip_ws (x ++ y) = x ++ y.
Proof. intros (c & r & -> & W & _). cbn [app skip_ws]. rewrite W. reflexivity. Qed.
Lemma json_skip fparse x v w y : json fparse x v -> blank w -> skip_ws (w ++ x ++ y) = x ++ y.
Proof. intros J B. rewrite (skip_blank _ _ B). apply (skip_starts _ _ _ (json_head _ _ _ J)). Qed.
Lemma elements_head fparse y l : elements fparse y l -> forall z, exists d r, skip_ws (y ++ z) = d :: r /\ d <> 93.
Proof.
  intros H z. destruct H as [w x w' v B J B'|w x w' v y l B J B' E]; rewrite <- !app_assoc, (json_skip _ _ _ _ _ J B); destruct (json_head _ _ _ J) as (c & r & -> & _ & D & _); eexists _, _; (split; [reflexivity|exact D]).
Qed.
Lemma members_head fparse y l : members fparse y l -> forall z, exists r, skip_ws (y ++ z) = 34 :: r.
Proof. intros H z. destruct H as [w|w]; rewrite <- !app_assoc, skip_blank by assumption; eexists; reflexivity. Qed.
Lemma stop_blank w c r : blank w -> c = 44 \/ c = 93 \/ c = 125 -> stop (w ++ c :: r).
Proof. intros B H. destruct B as [|d w Hd B]; cbn; [auto|]. left. apply ws_iff, Hd. Qed.
Lemma stop_end w : blank w -> stop w.
Proof. intros B. destruct B as [|d w Hd B]; cbn; [exact I|]. left. apply ws_iff, Hd. Qed.
Lemma skip_blank_char w c r : blank w -> is_ws c = false -> skip_ws (w ++ c :: r) = c :: r.
Proof. intros B W. rewrite (skip_blank _ _ B). cbn [skip_ws]. rewrite W. reflexivity. Qed.

Lemma grammar_read fparse :
  (forall x v, json fparse x v -> forall r f, stop r -> (2 * length x <= f)%nat -> jvalue fparse f (x ++ r) = Ok (v, r)) /\
  (forall y l, elements fparse y l -> forall r f, (2 * length y + 1 <= f)%nat -> jelems fparse f (skip_ws (y ++ 93 :: r)) = Ok (l, r)) /\
  (forall y l, members fparse y l -> forall r f, (2 * length y + 1 <= f)%nat -> jmembers fparse f (skip_ws (y ++ 125 :: r)) = Ok (l, r)).
Proof.
  assert (K : forall p o, In (p, o) constants -> forall r f, (2 * length p <= f)%nat -> jvalue fparse f (p ++ r) = Ok (o, r)).
  { intros p o I r f F. destruct f as [|f]; [cbn in I; repeat (destruct I as [I|I]; [injection I as <- <-; cbn in F; lia|]); contradiction|].
    cbn in I. repeat (destruct I as [I|I]; [injection I as <- <-; reflexivity|]). contradiction. }
  apply grammar_ind.
  - intros r f _ F. apply K; [cbn; tauto|exact F].
  - intros r f _ F. apply K; [cbn; tauto|exact F].
  - intros r f _ F. apply K; [cbn; tauto|exact F].
  - intros x i H r f St F. destruct (number_head x (or_introl (ex_intro _ i H))) as (c & r' & E & D). destruct f as [|f]; [rewrite E in F; cbn in F; lia|].
    rewrite E, (value_number _ _ _ _ _ D), <- E. exact (number_ok fparse x i [] [] r H (or_introl eq_refl) (or_introl eq_refl) St).
  - intros x H r f St F. destruct (number_head x (or_intror H)) as (c & r' & E & D). destruct f as [|f]; [rewrite E in F; cbn in F; lia|].
    rewrite E, (value_number _ _ _ _ _ D), <- E. destruct H as (a & i & fr & ex & Ha & Hf & He & NE & ->). rewrite <- !app_assoc, (number_ok fparse a i fr ex r Ha Hf He St).
    destruct (fr ++ ex); [contradiction|reflexivity].
  - intros r f _ F. apply K; [cbn; tauto|exact F].
  - intros r f _ F. apply K; [cbn; tauto|exact F].
  - intros r f _ F. apply K; [cbn; tauto|exact F].
  - intros x v C r f _ F. destruct f as [|f]; [cbn in F; lia|]. change (s """") with [34]. cbn [app jvalue N.eqb Pos.eqb]. rewrite <- app_assoc. cbn [app]. unfold scanstring.
    rewrite (scan_ok x v C) by (rewrite app_length; cbn; lia). reflexivity.
  - intros w B r f _ F. destruct f as [|f]; [cbn in F; lia|]. change (s "[") with [91]. change (s "]") with [93]. cbn [app jvalue N.eqb Pos.eqb]. rewrite <- app_assoc. cbn [app].
    rewrite skip_blank_char by (exact B || reflexivity). reflexivity.
  - intros x l H IH r f _ F. destruct f as [|f]; [cbn in F; lia|]. change (s "[") with [91] in *. change (s "]") with [93] in *. cbn [app jvalue N.eqb Pos.eqb]. rewrite <- app_assoc. cbn [app].
    cbn [app length] in F. rewrite app_length in F. cbn [length] in F. specialize (IH r f ltac:(lia)). destruct (elements_head _ _ _ H (93 :: r)) as (d & r1 & E & D). rewrite E in *.
    destruct (N.eqb_spec d 93); [contradiction|]. rewrite IH. reflexivity.
  - intros w B r f _ F. destruct f as [|f]; [cbn in F; lia|]. change (s "{") with [123]. change (s "}") with [125]. cbn [app jvalue N.eqb Pos.eqb]. rewrite <- app_assoc. cbn [app].
    rewrite skip_blank_char by (exact B || reflexivity). reflexivity.
  - intros x l d H IH P r f _ F. destruct f as [|f]; [cbn in F; lia|]. change (s "{") with [123] in *. change (s "}") with [125] in *. cbn [app jvalue N.eqb Pos.eqb]. rewrite <- app_assoc. cbn [app].
    cbn [app length] in F. rewrite app_length in F. cbn [length] in F. specialize (IH r f ltac:(lia)). destruct (members_head _ _ _ H (125 :: r)) as (r1 & E). rewrite E in *.
    cbn [N.eqb Pos.eqb]. rewrite IH. cbn [rbind]. apply pairs_iff in P. rewrite P. reflexivity.
  - intros w x w' v B J IH B' r f F. destruct f as [|f]; [lia|]. rewrite !app_length in F. rewrite <- !app_assoc, (json_skip _ _ _ _ _ J B). cbn [jelems].
    rewrite IH by (first [apply stop_blank; [exact B'|auto]|lia]). cbn [rbind]. rewrite skip_blank_char by (exact B' || reflexivity). reflexivity.
  - intros w x w' v y l B J IH B' E IHe r f F. destruct f as [|f]; [lia|]. change (s ",") with [44] in *. rewrite !app_length in F. cbn [length] in F. rewrite <- !app_assoc, (json_skip _ _ _ _ _ J B). cbn [jelems app].
    rewrite IH by (first [apply stop_blank; [exact B'|auto]|lia]). cbn [rbind]. rewrite skip_blank_char by (exact B' || reflexivity). cbn [N.eqb Pos.eqb]. rewrite IHe by lia. reflexivity.
  - intros w k kv w1 w2 x v w' B C B1 B2 J IH B' r f F. destruct f as [|f]; [lia|]. change (s """") with [34] in *. change (s ":") with [58] in *. rewrite !app_length in F. cbn [length] in F.
    rewrite <- !app_assoc. cbn [app]. rewrite skip_blank_char by (exact B || reflexivity). cbn [jmembers N.eqb Pos.eqb]. unfold scanstring. rewrite (scan_ok k kv C) by (rewrite app_length; lia). cbn [rbind].
    rewrite skip_blank_char by (exact B1 || reflexivity). cbn [N.eqb Pos.eqb]. rewrite (json_skip _ _ _ _ _ J B2), IH by (first [apply stop_blank; [exact B'|auto]|lia]). cbn [rbind].
    rewrite skip_blank_char by (exact B' || reflexivity). reflexivity.
  - intros w k kv w1 w2 x v w' y l B C B1 B2 J IH B' M IHm r f F. destruct f as [|f]; [lia|]. change (s """") with [34] in *. change (s ":") with [58] in *. change (s ",") with [44] in *. rewrite !app_length in F. cbn [length] in F.
    rewrite <- !app_assoc. cbn [app]. rewrite skip_blank_char by (exact B || reflexivity). cbn [jmembers N.eqb Pos.eqb]. unfold scanstring. rewrite (scan_ok k kv C) by (rewrite app_length; lia). cbn [rbind].
    rewrite skip_blank_char by (exact B1 || reflexivity). cbn [N.eqb Pos.eqb]. rewrite (json_skip _ _ _ _ _ J B2), IH by (first [apply stop_blank; [exact B'|auto]|lia]). cbn [rbind].
    rewrite skip_blank_char by (exact B' || reflexivity). cbn [N.eqb Pos.eqb]. rewrite IHm by lia. reflexivity.
Qed.

(** ** Nothing else is read *)
Lemma after_split p x r : after p x = Some r -> x = p ++ r.
Proof.
  revert x. induction p as [|a p IH]; intros x E; [injection E as <-; reflexivity|]. destruct x as [|b x]; [discriminate|]. cbn [after] in E. destruct (N.eqb_spec a b) as [->|]; [|discriminate].
  rewrite (IH _ E). reflexivity.
Qed.
Lemma constant_split l x o r : constant l x = Some (o, r) -> exists p, In (p, o) l /\ x = p ++ r.
Proof.
  induction l as [|[p o'] l IH]; intros E; [discriminate|]. cbn [constant] in E. destruct (after p x) as [r'|] eqn:A.
  - injection E as <- <-. exists p. split; [left; reflexivity|apply after_split, A].
  - destruct (IH E) as (p' & I & X). exists p'. split; [right; exact I|exact X].
Qed.
Lemma elements_blank fparse w y l : blank w -> elements fparse y l -> elements fparse (w ++ y) l.
Proof.
  intros B H. destruct H as [w0 x w' v B0 J B'|w0 x w' v y l B0 J B' E]; rewrite app_assoc; constructor; auto; apply Forall_app; split; assumption.
Qed.
Lemma members_blank fparse w y l : blank w -> members fparse y l -> members fparse (w ++ y) l.
Proof.
  intros B H. destruct H; rewrite app_assoc; constructor; auto; apply Forall_app; split; assumption.
Qed.
Lemma rbind_pair {A B C} (q : res (A * B)) (k : A -> B -> res C) o : (let* (a, b) := q in k a b) = Ok o -> exists a b, q = Ok (a, b) /\ k a b = Ok o.
Proof. destruct q as [[a b]|]; [eauto|discriminate]. Qed.
Lemma grammar_sound fparse f :
  (forall x v r, jvalue fparse f x = Ok (v, r) -> exists t, x = t ++ r /\ json fparse t v) /\
  (forall x l r, jelems fparse f x = Ok (l, r) -> exists t, x = t ++ 93 :: r /\ elements fparse t l) /\
  (forall x l r, jmembers fparse f x = Ok (l, r) -> exists t, x = t ++ 125 :: r /\ members fparse t l).
Proof.
  induction f as [|f (IHv & IHe & IHm)]; [repeat split; intros; discriminate|]. split; [|split].
  - intros x v r E. destruct x as [|c x]; [discriminate|]. cbn [jvalue] in E. destruct (N.eqb_spec c 34) as [->|N1].
    { apply rbind_pair in E. destruct E as (k & r1 & S & E). apply Proof_Msgpack.Ok_inj in E. injection E as <- <-. destruct (scan_sound _ _ _ _ S) as (t & -> & C).
      exists (34 :: t ++ [34]). split; [cbn; rewrite <- app_assoc; reflexivity|]. apply (js_str fparse t k C). }
    destruct (N.eqb_spec c 91) as [->|N2].
    { destruct (skip_split x) as (w & B & X). destruct (skip_ws x) as [|d r1] eqn:Sk; [discriminate|]. destruct (N.eqb_spec d 93) as [->|D].
      - apply Proof_Msgpack.Ok_inj in E. injection E as <- <-. exists (91 :: w ++ [93]). split; [rewrite X; cbn; rewrite <- app_assoc; reflexivity|]. apply (js_arr0 fparse w B).
      - apply rbind_pair in E. destruct E as (l & r2 & S & E). apply Proof_Msgpack.Ok_inj in E. injection E as <- <-. destruct (IHe _ _ _ S) as (t & T & C).
        exists (91 :: (w ++ t) ++ [93]). split; [rewrite X, T; cbn; rewrite <- !app_assoc; reflexivity|]. apply (js_arr fparse (w ++ t) l). apply elements_blank; assumption. }
    destruct (N.eqb_spec c 123) as [->|N3].
    { destruct (skip_split x) as (w & B & X). destruct (skip_ws x) as [|d r1] eqn:Sk; [discriminate|]. destruct (N.eqb_spec d 125) as [->|D].
      - apply Proof_Msgpack.Ok_inj in E. injection E as <- <-. exists (123 :: w ++ [125]). split; [rewrite X; cbn; rewrite <- app_assoc; reflexivity|]. apply (js_map0 fparse w B).
      - apply rbind_pair in E. destruct E as (l & r2 & S & E). apply Proof_Msgpack.Ok_inj in E. injection E as <- <-. destruct (IHm _ _ _ S) as (t & T & C).
        exists (123 :: (w ++ t) ++ [125]). split; [rewrite X, T; cbn; rewrite <- !app_assoc; reflexivity|]. apply (js_map fparse (w ++ t) l); [apply members_blank; assumption|apply pairs_iff; reflexivity]. }
    destruct (constant constants (c :: x)) as [[o r1]|] eqn:K; [|apply number_sound, E].
    apply Proof_Msgpack.Ok_inj in E. injection E as <- <-. apply constant_split in K. destruct K as (p & I & X). exists p. split; [exact X|].
    cbn in I. repeat (destruct I as [I|I]; [injection I as <- <-; constructor|]). contradiction.
  - intros x l r E. cbn [jelems] in E. apply rbind_pair in E. destruct E as (v & r0 & V & E). destruct (IHv _ _ _ V) as (t & -> & J).
    destruct (skip_split r0) as (w & B & X). destruct (skip_ws r0) as [|c r1]; [discriminate|]. destruct (N.eqb_spec c 44) as [->|D].
    + apply rbind_pair in E. destruct E as (l' & r2 & L & E). apply Proof_Msgpack.Ok_inj in E. injection E as <- <-. destruct (IHe _ _ _ L) as (t' & T & C).
      destruct (skip_split r1) as (w1 & B1 & X1). rewrite T in X1. exists ([] ++ t ++ w ++ s "," ++ w1 ++ t'). split; [rewrite X, X1; cbn; rewrite <- !app_assoc; cbn; rewrite <- !app_assoc; reflexivity|].
      constructor; [constructor|exact J|exact B|apply elements_blank; assumption].
    + destruct (N.eqb_spec c 93) as [->|]; [|discriminate]. apply Proof_Msgpack.Ok_inj in E. injection E as <- <-. exists ([] ++ t ++ w). split; [rewrite X; cbn; rewrite <- app_assoc; reflexivity|].
      constructor; [constructor|exact J|exact B].
  - intros x l r E. cbn [jmembers] in E. destruct x as [|q x]; [discriminate|]. destruct (N.eqb_spec q 34) as [->|]; [|discriminate]. apply rbind_pair in E. destruct E as (k & r1 & K & E).
    destruct (scan_sound _ _ _ _ K) as (tk & -> & Ck). destruct (skip_split r1) as (w1 & B1 & X1). destruct (skip_ws r1) as [|c r2]; [discriminate|]. destruct (N.eqb_spec c 58) as [->|]; [|discriminate].
    apply rbind_pair in E. destruct E as (v & r3 & V & E). destruct (IHv _ _ _ V) as (t & T & J). destruct (skip_split r2) as (w2 & B2 & X2). rewrite T in X2.
    destruct (skip_split r3) as (w & B & X). destruct (skip_ws r3) as [|e r4]; [discriminate|]. destruct (N.eqb_spec e 44) as [->|D].
    + apply rbind_pair in E. destruct E as (l' & r5 & L & E). apply Proof_Msgpack.Ok_inj in E. injection E as <- <-. destruct (IHm _ _ _ L) as (t' & T' & C).
      destruct (skip_split r4) as (w3 & B3 & X3). rewrite T' in X3. exists ([] ++ s """" ++ tk ++ s """" ++ w1 ++ s ":" ++ w2 ++ t ++ w ++ s "," ++ w3 ++ t'). split.
      * rewrite X1, X2, X, X3. change (s """") with [34]. change (s ":") with [58]. change (s ",") with [44]. repeat (cbn [app]; rewrite <- ?app_assoc). reflexivity.
      * constructor; try assumption; [constructor|apply members_blank; assumption].
    + destruct (N.eqb_spec e 125) as [->|]; [|discriminate]. apply Proof_Msgpack.Ok_inj in E. injection E as <- <-. exists ([] ++ s """" ++ tk ++ s """" ++ w1 ++ s ":" ++ w2 ++ t ++ w). split.
      * rewrite X1, X2, X. change (s """") with [34]. change (s ":") with [58]. repeat (cbn [app]; rewrite <- ?app_assoc). reflexivity.
      * constructor; try assumption. constructor.
Qed.
Lemma json_nonempty fparse x v : json fparse x v -> (1 <= length x)%nat.
Proof. intros J. destruct (json_head _ _ _ J) as (c & r & -> & _). cbn. lia. Qed.
Lemma loads_iff fparse x o : loads fparse x = Ok o <-> exists w t w', x = w ++ t ++ w' /\ blank w /\ blank w' /\ json fparse t o.
Proof.
  split.
  - unfold loads. intros E. apply rbind_pair in E. destruct E as (v & r & V & E). destruct (skip_ws r) eqn:R; [|discriminate]. apply Proof_Msgpack.Ok_inj in E. subst v. apply skip_nil in R.
    destruct (proj1 (grammar_sound fparse _) _ _ _ V) as (t & T & J). destruct (skip_split x) as (w & B & X). rewrite T in X. exists w, t, r. auto.
  - intros (w & t & w' & -> & B & B' & J). unfold loads. rewrite (json_skip _ _ _ _ _ J B). rewrite (proj1 (grammar_read fparse) _ _ J); [|apply stop_end, B'|rewrite app_length; lia].
    cbn [rbind]. rewrite (skip_all _ B'). reflexivity.
Qed.
(** ** Enough fuel *)
Lemma rbind_fuel {A B C} (q : res (A * B)) (k : A -> B -> res C) : q <> Err OutOfFuel -> (forall a b, q = Ok (a, b) -> k a b <> Err OutOfFuel) -> (let* (a, b) := q in k a b) <> Err OutOfFuel.
Proof. destruct q as [[a b]|e]; [intros _ H; exact (H a b eq_refl)|intros H _ E; apply H; injection E as ->; reflexivity]. Qed.
Lemma scanstring_fuel x : scanstring x <> Err OutOfFuel.
Proof. apply scan_fuel. lia. Qed.
Lemma grammar_fuel fparse f :
  (forall x, (2 * length x < f)%nat -> jvalue fparse f x <> Err OutOfFuel) /\
  (forall x, (2 * length x + 1 < f)%nat -> jelems fparse f x <> Err OutOfFuel) /\
  (forall x, (2 * length x + 1 < f)%nat -> jmembers fparse f x <> Err OutOfFuel).
Proof.
  induction f as [|f (IHv & IHe & IHm)]; [repeat split; intros; exfalso; lia|]. split; [|split].
  - intros x L. destruct x as [|c x]; [discriminate|]. cbn [length] in L. cbn [jvalue]. assert (Sk := skip_length x). destruct (c =? 34); [|destruct (c =? 91); [|destruct (c =? 123)]].
    + apply rbind_fuel; [apply scanstring_fuel|discriminate].
    + destruct (skip_ws x) as [|d r1]; [discriminate|]. destruct (d =? 93); [discriminate|]. apply rbind_fuel; [apply IHe; lia|discriminate].
    + destruct (skip_ws x) as [|d r1]; [discriminate|]. destruct (d =? 125); [discriminate|]. apply rbind_fuel; [apply IHm; lia|discriminate].
    + destruct (constant constants (c :: x)); [discriminate|apply number_fuel].
  - intros x L. cbn [jelems]. apply rbind_fuel; [apply IHv; lia|]. intros v r V. destruct (proj1 (grammar_sound fparse f) _ _ _ V) as (t & -> & J). apply json_nonempty in J. rewrite app_length in L.
    assert (Sk := skip_length r). destruct (skip_ws r) as [|c r1]; [discriminate|]. cbn [length] in Sk. destruct (c =? 44); [|destruct (c =? 93); discriminate].
    assert (Sk1 := skip_length r1). apply rbind_fuel; [apply IHe; lia|discriminate].
  - intros x L. cbn [jmembers]. destruct x as [|q x]; [discriminate|]. destruct (q =? 34); [|discriminate]. apply rbind_fuel; [apply scanstring_fuel|]. intros k r1 K. cbn [length] in L.
    destruct (scan_sound _ _ _ _ K) as (tk & -> & _). rewrite app_length in L. cbn [length] in L. assert (S1 := skip_length r1). destruct (skip_ws r1) as [|c r2]; [discriminate|]. cbn [length] in S1.
    destruct (c =? 58); [|discriminate]. assert (S2 := skip_length r2). apply rbind_fuel; [apply IHv; lia|]. intros v r3 V. destruct (proj1 (grammar_sound fparse f) _ _ _ V) as (t & T & J). rewrite T, app_length in S2.
    assert (S3 := skip_length r3). destruct (skip_ws r3) as [|e r4]; [discriminate|]. cbn [length] in S3. destruct (e =? 44); [|destruct (e =? 125); discriminate].
    assert (S4 := skip_length r4). apply rbind_fuel; [apply IHm; lia|discriminate].
Qed.
Lemma loads_fuel fparse x : loads fparse x <> Err OutOfFuel.
Proof.
  unfold loads. apply rbind_fuel; [apply (proj1 (grammar_fuel fparse _)); lia|]. intros v r _. destruct (skip_ws r); discriminate.
Qed.
