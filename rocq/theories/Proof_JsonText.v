(** json.loads accepts exactly the texts of the grammar. *)
From Verif Require Import PyBase PyBaseFacts Model_Msgpack Model_JsonText Spec_Printout Spec_JsonText.
From Verif Require Proof_Msgpack.
Local Open Scope N_scope.

Lemma hexval_iff c v : hexval c = Some v <-> hex_digit c v.
Proof.
  unfold hexval, hex_digit. split.
  - destruct (N.leb_spec 48 c), (N.leb_spec c 57); cbn [andb]; [intros E; injection E as <-; left; lia| | |];
    (destruct (N.leb_spec 97 c), (N.leb_spec c 102); cbn [andb]; [intros E; injection E as <-; right; left; lia| | |];
     (destruct (N.leb_spec 65 c), (N.leb_spec c 70); cbn [andb]; [intros E; injection E as <-; right; right; lia| | |]; discriminate)).
  - intros H. destruct (N.leb_spec 48 c), (N.leb_spec c 57); cbn [andb]; try (f_equal; lia); destruct (N.leb_spec 97 c), (N.leb_spec c 102); cbn [andb]; try (f_equal; lia);
    destruct (N.leb_spec 65 c), (N.leb_spec c 70); cbn [andb]; try (f_equal; lia); exfalso; lia.
Qed.
Lemma unit_read x u r : unit_text x u -> read_uesc (x ++ r) = Some (u, r).
Proof.
  intros (a & b & c & d & a' & b' & c' & d' & -> & A & B & C & D & ->). cbn [app read_uesc N.eqb Pos.eqb andb]. unfold read_hex4.
  apply hexval_iff in A, B, C, D. rewrite A, B, C, D. f_equal. f_equal. lia.
Qed.
Lemma read_unit x u r : read_uesc x = Some (u, r) -> exists t, x = t ++ r /\ unit_text t u.
Proof.
  unfold read_uesc. destruct x as [|p [|q x]]; try discriminate. destruct (N.eqb_spec p 92) as [->|]; [|discriminate]. destruct (N.eqb_spec q 117) as [->|]; [|discriminate].
  cbn [andb]. unfold read_hex4. destruct x as [|a [|b [|c [|d x]]]]; try discriminate.
  destruct (hexval a) as [a'|] eqn:A; [|discriminate]. destruct (hexval b) as [b'|] eqn:B; [|discriminate]. destruct (hexval c) as [c'|] eqn:C; [|discriminate]. destruct (hexval d) as [d'|] eqn:D; [|discriminate].
  remember (4096 * a' + 256 * b' + 16 * c' + d') as m eqn:M. intros E. injection E as <- <-. exists [92; 117; a; b; c; d]. split; [reflexivity|]. exists a, b, c, d, a', b', c', d'. apply hexval_iff in A, B, C, D. do 5 (split; [auto|]). rewrite M. clear. lia.
Qed.
Lemma unit_shape x u : unit_text x u -> exists a b c d, x = [92; 117; a; b; c; d] /\ (forall r, read_hex4 (a :: b :: c :: d :: r) = Some (u, r)) /\ a <> 34 /\ b <> 34 /\ c <> 34 /\ d <> 34.
Proof.
  intros H. assert (R := fun r => unit_read x u r H). destruct H as (a & b & c & d & a' & b' & c' & d' & -> & A & B & C & D & ->).
  exists a, b, c, d. split; [reflexivity|]. split; [intros r; exact (R r)|]. unfold hex_digit in *. repeat split; lia.
Qed.
(** a unit does not reach over a quote *)
Lemma unit_before z r t u y : t ++ y = z ++ 34 :: r -> unit_text t u -> exists z', z = t ++ z'.
Proof.
  intros E H. destruct (unit_shape _ _ H) as (a & b & c & d & -> & _ & A & B & C & D). cbn [app] in E.
  do 6 (destruct z as [|? z]; [cbn in E; congruence|cbn [app] in E; injection E as <- E]). exists z. reflexivity.
Qed.
Lemma high_iff u : is_high u = true <-> high u.
Proof. unfold is_high, high. rewrite andb_true_iff, !N.leb_le. reflexivity. Qed.
Lemma low_iff u : is_low u = true <-> low u.
Proof. unfold is_low, low. rewrite andb_true_iff, !N.leb_le. reflexivity. Qed.
Lemma escape_iff e c : simple_escape e = Some c <-> In (e, c) escapes.
Proof.
  unfold simple_escape, escapes. split.
  - intros H. repeat match type of H with (if ?a =? ?b then _ else _) = _ => destruct (N.eqb_spec a b); [injection H as <-; subst; cbn; tauto|] end. discriminate.
  - cbn. intros H. repeat (destruct H as [H|H]; [injection H as <- <-; reflexivity|]). contradiction.
Qed.
Lemma escape_not_u e c : In (e, c) escapes -> e <> 117.
Proof. cbn. intros H ->. repeat (destruct H as [H|H]; [discriminate H|]). contradiction. Qed.
Lemma scan_ok x v : chars x v -> forall f r, (length x < f)%nat -> scan f (x ++ 34 :: r) = Ok (v, r).
Proof.
  induction 1 as [|c x v L Q B C IH|e c x v E C IH|x y u w z v U W Hu Hw C IH|x u z v U N C IH]; intros f r F; (destruct f as [|f]; [exfalso; inversion F|]).
  - reflexivity.
  - cbn [app scan]. destruct (N.eqb_spec c 34); [contradiction|]. destruct (N.eqb_spec c 92); [contradiction|]. destruct (N.ltb_spec c 32); [lia|]. rewrite IH by (cbn in F; lia). reflexivity.
  - cbn [app scan N.eqb Pos.eqb]. destruct (N.eqb_spec e 117) as [->|_]; [exfalso; apply (escape_not_u _ _ E); reflexivity|]. apply escape_iff in E. rewrite E, IH by (cbn in F; lia). reflexivity.
  - destruct (unit_shape _ _ U) as (a & b & c & d & -> & R & _). rewrite <- !app_assoc. cbn [app scan N.eqb Pos.eqb]. change (a :: b :: c :: d :: (y ++ z ++ 34 :: r)) with (a :: b :: c :: d :: (y ++ z ++ 34 :: r)).
    rewrite R. unfold second_half. rewrite (proj2 (high_iff u) Hu), (unit_read y w _ W), (proj2 (low_iff w) Hw). rewrite IH by (rewrite !app_length in F; cbn in F; lia).
    cbn [push rbind]. do 3 f_equal. unfold high, low in *. lia.
  - destruct (unit_shape _ _ U) as (a & b & c & d & -> & R & _). rewrite <- !app_assoc. cbn [app scan N.eqb Pos.eqb].
    rewrite R. assert (S : second_half u (z ++ 34 :: r) = None).
    { unfold second_half. destruct (is_high u) eqn:Hu; [|reflexivity]. destruct (read_uesc (z ++ 34 :: r)) as [[w y]|] eqn:E; [|reflexivity]. destruct (is_low w) eqn:Hw; [|reflexivity].
      exfalso. apply N. apply high_iff in Hu. apply low_iff in Hw. split; [exact Hu|]. apply read_unit in E. destruct E as (t & E & W). symmetry in E. destruct (unit_before _ _ _ _ _ E W) as (z' & ->).
      exists t, w, z'. auto. }
    rewrite S, IH by (rewrite !app_length in F; cbn in F; lia). reflexivity.
Qed.
Lemma push_ok c q v r : push c q = Ok (v, r) -> exists v', q = Ok (v', r) /\ v = c :: v'.
Proof. destruct q as [[v' r']|]; [|discriminate]. intros E. injection E as <- <-. eauto. Qed.
Lemma scan_sound f : forall x v r, scan f x = Ok (v, r) -> exists t, x = t ++ 34 :: r /\ chars t v.
Proof.
  induction f as [|f IH]; intros x v r E; [discriminate|]. cbn [scan] in E. destruct x as [|c x]; [discriminate|].
  destruct (N.eqb_spec c 34) as [->|Q]; [injection E as <- <-; exists []; split; [reflexivity|constructor]|].
  destruct (N.eqb_spec c 92) as [->|B].
  - destruct x as [|e x]; [discriminate|]. destruct (N.eqb_spec e 117) as [->|U].
    + destruct (read_hex4 x) as [[u y]|] eqn:R; [|discriminate].
      assert (R' : read_uesc (92 :: 117 :: x) = Some (u, y)) by exact R. apply read_unit in R'. destruct R' as (t & T & Ut).
      destruct (second_half u y) as [[w z]|] eqn:S2.
      * apply push_ok in E. destruct E as (v' & E & ->). destruct (IH _ _ _ E) as (t' & -> & C). unfold second_half in S2. destruct (is_high u) eqn:Hu; [|discriminate].
        destruct (read_uesc y) as [[w' z']|] eqn:Y; [|discriminate]. destruct (is_low w') eqn:Hw; [|discriminate]. injection S2 as <- ->. apply read_unit in Y. destruct Y as (t2 & -> & W).
        exists (t ++ t2 ++ t'). split; [rewrite T, <- !app_assoc; reflexivity|]. apply high_iff in Hu. apply low_iff in Hw.
        replace (65536 + 1024 * (u - 55296) + (w' - 56320)) with ((u - 55296) * 1024 + (w' - 56320) + 65536) by lia. constructor; assumption.
      * apply push_ok in E. destruct E as (v' & E & ->). destruct (IH _ _ _ E) as (t' & -> & C). exists (t ++ t'). split; [rewrite T, <- !app_assoc; reflexivity|].
        constructor; [exact Ut| |exact C]. intros (Hu & y' & w & z' & -> & W & Hw). unfold second_half in S2. rewrite (proj2 (high_iff u) Hu), <- app_assoc, (unit_read _ _ _ W), (proj2 (low_iff w) Hw) in S2. discriminate.
    + destruct (simple_escape e) as [d|] eqn:D; [|discriminate]. apply push_ok in E. destruct E as (v' & E & ->). destruct (IH _ _ _ E) as (t' & -> & C).
      exists (92 :: e :: t'). split; [reflexivity|]. constructor; [apply escape_iff, D|exact C].
  - destruct (N.ltb_spec c 32) as [|L]; [discriminate|]. apply push_ok in E. destruct E as (v' & E & ->). destruct (IH _ _ _ E) as (t' & -> & C).
    exists (c :: t'). split; [reflexivity|]. constructor; assumption.
Qed.
Lemma scan_fuel f : forall x, (length x < f)%nat -> scan f x <> Err OutOfFuel.
Proof.
  assert (P : forall c q, q <> Err OutOfFuel -> push c q <> Err OutOfFuel) by (intros c [[? ?]|e] H; [discriminate|exact H]).
  induction f as [|f IH]; intros x L; [inversion L|]. cbn [scan]. destruct x as [|c x]; [discriminate|]. cbn [length] in L.
  destruct (c =? 34); [discriminate|]. destruct (c =? 92).
  - destruct x as [|e x]; [discriminate|]. cbn [length] in L. destruct (N.eqb_spec e 117) as [->|].
    + destruct (read_hex4 x) as [[u y]|] eqn:R; [|discriminate]. assert (R' : read_uesc (92 :: 117 :: x) = Some (u, y)) by exact R. apply read_unit in R'. destruct R' as (t & T & U).
      apply (f_equal (@length N)) in T. rewrite app_length in T. cbn [length] in T. destruct (unit_shape _ _ U) as (? & ? & ? & ? & -> & _). cbn [length] in T.
      destruct (second_half u y) as [[w z]|] eqn:S2.
      * unfold second_half in S2. destruct (is_high u); [|discriminate]. destruct (read_uesc y) as [[w' z']|] eqn:Y; [|discriminate]. destruct (is_low w'); [|discriminate]. injection S2 as <- <-.
        apply read_unit in Y. destruct Y as (t2 & -> & W). rewrite app_length in T. apply P, IH. lia.
      * apply P, IH. lia.
    + destruct (simple_escape e); [|discriminate]. apply P, IH. lia.
  - destruct (c <? 32); [discriminate|]. apply P, IH. lia.
Qed.

(** ** Blanks *)
Lemma ws_iff c : is_ws c = true <-> c = 32 \/ c = 9 \/ c = 10 \/ c = 13.
Proof. unfold is_ws. rewrite !orb_true_iff, !N.eqb_eq. tauto. Qed.
Lemma skip_blank w x : blank w -> skip_ws (w ++ x) = skip_ws x.
Proof. induction 1 as [|c w H _ IH]; [reflexivity|]. cbn [app skip_ws]. rewrite (proj2 (ws_iff c) H). exact IH. Qed.
Lemma skip_split x : exists w, blank w /\ x = w ++ skip_ws x.
Proof.
  induction x as [|c x (w & B & E)]; [exists []; split; [constructor|reflexivity]|]. cbn [skip_ws]. destruct (is_ws c) eqn:W.
  - exists (c :: w). split; [constructor; [apply ws_iff, W|exact B]|]. cbn [app]. rewrite <- E. reflexivity.
  - exists []. split; [constructor|reflexivity].
Qed.
Lemma skip_length x : (length (skip_ws x) <= length x)%nat.
Proof. destruct (skip_split x) as (w & _ & E). rewrite E at 2. rewrite app_length. lia. Qed.
Lemma skip_all w : blank w -> skip_ws w = [].
Proof. intros B. rewrite <- (app_nil_r w), skip_blank by exact B. reflexivity. Qed.
Lemma skip_nil x : skip_ws x = [] -> blank x.
Proof. intros E. destruct (skip_split x) as (w & B & X). rewrite E, app_nil_r in X. rewrite X. exact B. Qed.

(** ** Numbers *)
Lemma dig_iff c : is_dig c = true <-> is_digit c.
Proof. unfold is_dig, is_digit. rewrite andb_true_iff, !N.leb_le. reflexivity. Qed.
Definition no_digit (x : pystr) : Prop := match x with c :: _ => is_dig c = false | [] => True end.
Lemma digits_split x : forall a b, take_digits x = (a, b) -> x = a ++ b /\ Forall is_digit a /\ no_digit b.
Proof.
  induction x as [|c x IH]; intros a b E; cbn [take_digits] in E; [injection E as <- <-; repeat constructor|].
  destruct (is_dig c) eqn:D; [|injection E as <- <-; split; [reflexivity|split; [constructor|exact D]]].
  destruct (take_digits x) as [a' b']. injection E as <- <-. destruct (IH _ _ eq_refl) as (-> & F & G). split; [reflexivity|split; [constructor; [apply dig_iff, D|exact F]|exact G]].
Qed.
Lemma digits_join a b : Forall is_digit a -> no_digit b -> take_digits (a ++ b) = (a, b).
Proof.
  intros F G. induction F as [|c a D F IH].
  - cbn [app]. destruct b as [|c b]; [reflexivity|]. cbn [take_digits]. cbn in G. rewrite G. reflexivity.
  - cbn [app take_digits]. rewrite (proj2 (dig_iff c) D), IH. reflexivity.
Qed.
Lemma read_decimal x : read_int x = decimal x.
Proof. unfold read_int, decimal. generalize 0%Z. induction x as [|c x IH]; intros a; [reflexivity|]. cbn [fold_left]. rewrite IH. f_equal. unfold digit_value. lia. Qed.
Lemma int_split x a b : take_int x = (a, b) -> a <> [] -> x = a ++ b /\ natural_text a (decimal a).
Proof.
  unfold take_int. destruct x as [|c x]; [intros E NE; injection E as <- <-; contradiction|]. destruct (N.eqb_spec c 48) as [->|D].
  - intros E _. injection E as <- <-. split; [reflexivity|]. repeat split; try discriminate. repeat constructor; discriminate.
  - intros E NE. destruct (digits_split _ _ _ E) as (X & F & _). split; [exact X|]. split; [exact NE|split; [exact F|split; [reflexivity|]]].
    intros H. destruct a as [|c' a]; [contradiction|]. cbn [app] in X. injection X as -> _. cbn in H. contradiction.
Qed.
Lemma int_join a n b : natural_text a n -> no_digit b -> take_int (a ++ b) = (a, b).
Proof.
  intros (NE & F & _ & Z) G. destruct a as [|c a]; [contradiction|]. unfold take_int. cbn [app]. destruct (N.eqb_spec c 48) as [->|D].
  - specialize (Z eq_refl). cbn in Z. subst a. reflexivity.
  - exact (digits_join (c :: a) b F G).
Qed.
Lemma frac_split x a b : take_frac x = (a, b) -> x = a ++ b /\ fraction a.
Proof.
  unfold take_frac. destruct x as [|c x]; [intros E; injection E as <- <-; split; [reflexivity|left; reflexivity]|]. destruct (N.eqb_spec c 46) as [->|D].
  - destruct (take_digits x) as [[|d ds] r] eqn:T; intros E; injection E as <- <-; [split; [reflexivity|left; reflexivity]|].
    destruct (digits_split _ _ _ T) as (-> & F & _). split; [reflexivity|]. right. exists (d :: ds). repeat split; [discriminate|exact F].
  - intros E; injection E as <- <-; split; [reflexivity|left; reflexivity].
Qed.
Lemma frac_join a b : fraction a -> no_digit b -> hd 0 b <> 46 -> take_frac (a ++ b) = (a, b).
Proof.
  intros [->|(ds & NE & F & ->)] G H.
  - cbn [app]. destruct b as [|c b]; [reflexivity|]. unfold take_frac. destruct (N.eqb_spec c 46); [contradiction|reflexivity].
  - unfold take_frac. cbn [app N.eqb Pos.eqb]. rewrite (digits_join _ _ F G). destruct ds; [contradiction|reflexivity].
Qed.
Lemma exp_split x a b : take_exp x = (a, b) -> x = a ++ b /\ exponent a.
Proof.
  unfold take_exp. destruct x as [|c x]; [intros E; injection E as <- <-; split; [reflexivity|left; reflexivity]|].
  destruct ((c =? 101) || (c =? 69)) eqn:D; [|intros E; injection E as <- <-; split; [reflexivity|left; reflexivity]].
  assert (Ec : c = 101 \/ c = 69) by (apply orb_true_iff in D; rewrite !N.eqb_eq in D; exact D).
  destruct (take_esign x) as [sg r1] eqn:S. assert (X : x = sg ++ r1 /\ In sg [[]; [45]; [43]]).
  { unfold take_esign in S. destruct x as [|d x]; [injection S as <- <-; split; [reflexivity|cbn; tauto]|]. destruct ((d =? 45) || (d =? 43)) eqn:B; injection S as <- <-; (split; [reflexivity|]); [|cbn; tauto].
    apply orb_true_iff in B. rewrite !N.eqb_eq in B. destruct B as [->| ->]; cbn; tauto. }
  destruct X as (-> & I). destruct (take_digits r1) as [[|d ds] r] eqn:T; intros E; injection E as <- <-; [split; [reflexivity|left; reflexivity]|].
  destruct (digits_split _ _ _ T) as (-> & F & _). split; [cbn [app]; rewrite <- app_assoc; reflexivity|]. right. exists c, sg, (d :: ds). repeat split; auto. discriminate.
Qed.
Lemma exp_join a b : exponent a -> no_digit b -> hd 0 b <> 101 -> hd 0 b <> 69 -> take_exp (a ++ b) = (a, b).
Proof.
  intros [->|(e & sg & ds & E & I & NE & F & ->)] G H1 H2.
  - cbn [app]. destruct b as [|c b]; [reflexivity|]. unfold take_exp. cbn in H1, H2. destruct (N.eqb_spec c 101); [contradiction|]. destruct (N.eqb_spec c 69); [contradiction|reflexivity].
  - unfold take_exp. cbn [app]. replace ((e =? 101) || (e =? 69)) with true by (destruct E as [->| ->]; reflexivity). rewrite <- app_assoc.
    assert (S : take_esign (sg ++ ds ++ b) = (sg, ds ++ b)).
    { cbn in I. destruct I as [<-|[<-|[<-|[]]]]; [|reflexivity|reflexivity]. destruct ds as [|d ds]; [contradiction|]. inversion F; subst. unfold take_esign. cbn [app].
      unfold is_digit in *. destruct (N.eqb_spec d 45); [lia|]. destruct (N.eqb_spec d 43); [lia|reflexivity]. }
    rewrite S, (digits_join _ _ F G). destruct ds; [contradiction|reflexivity].
Qed.
Definition stop (x : pystr) : Prop := match x with c :: _ => is_ws c = true \/ c = 44 \/ c = 93 \/ c = 125 | [] => True end.
Lemma stop_facts x : stop x -> no_digit x /\ hd 0 x <> 46 /\ hd 0 x <> 101 /\ hd 0 x <> 69.
Proof.
  destruct x as [|c x]; cbn [stop no_digit hd]; [repeat split; discriminate|]. rewrite ws_iff. intros H.
  assert (D : ~ is_digit c) by (unfold is_digit; lia). split; [|lia]. destruct (is_dig c) eqn:E; [exfalso; apply D, dig_iff, E|reflexivity].
Qed.
Lemma natural_head a n : natural_text a n -> exists c r, a = c :: r /\ is_digit c.
Proof. intros (NE & F & _). destruct a as [|c a]; [contradiction|]. inversion F; subst. eauto. Qed.
Lemma sign_split x a b : take_sign x = (a, b) -> x = a ++ b /\ (a = [] \/ a = [45]).
Proof. unfold take_sign. destruct x as [|c x]; [intros E; injection E as <- <-; auto|]. destruct (N.eqb_spec c 45) as [->|]; intros E; injection E as <- <-; auto. Qed.
(** sign and digits of an integer *)
Lemma int_part_cases a i : int_part a i -> exists sg ds n, a = sg ++ ds /\ (sg = [] \/ sg = [45]) /\ natural_text ds n /\ i = match sg with [] => n | _ => (- n)%Z end.
Proof. intros [H|(y & n & -> & H & ->)]; [exists [], a, i|exists [45], y, n]; auto. Qed.
Lemma number_ok fparse a i fr ex r : int_part a i -> fraction fr -> exponent ex -> stop r ->
  number fparse (a ++ fr ++ ex ++ r) = Ok (match fr ++ ex with [] => MInt i | _ => MFloat (fparse (a ++ fr ++ ex)) end, r).
Proof.
  intros A F E St. destruct (stop_facts r St) as (ND & H1 & H2 & H3). destruct (int_part_cases _ _ A) as (sg & ds & n & -> & Sg & Nt & ->).
  unfold number. destruct (natural_head _ _ Nt) as (c & r' & Ed & Dc).
  assert (S : take_sign ((sg ++ ds) ++ fr ++ ex ++ r) = (sg, ds ++ fr ++ ex ++ r)).
  { rewrite <- app_assoc. destruct Sg as [->| ->]; [|reflexivity]. cbn [app]. rewrite Ed. cbn [app take_sign]. unfold is_digit in Dc. destruct (N.eqb_spec c 45); [lia|reflexivity]. }
  assert (X1 : no_digit (ex ++ r) /\ hd 0 (ex ++ r) <> 46).
  { destruct E as [->|(e & s1 & d1 & Ee & _ & _ & _ & ->)]; [split; assumption|]. cbn. split; [|lia]. destruct (is_dig e) eqn:De; [|reflexivity]. apply dig_iff in De. unfold is_digit in De. lia. }
  assert (X2 : no_digit (fr ++ ex ++ r)) by (destruct F as [->|(d1 & _ & _ & ->)]; [apply X1|reflexivity]).
  rewrite S, (int_join _ _ _ Nt X2), (frac_join _ _ F (proj1 X1) (proj2 X1)), (exp_join _ _ E ND H2 H3).
  destruct ds as [|d0 ds0]; [discriminate|]. f_equal. f_equal. destruct Nt as (_ & _ & Nv & _).
  destruct fr; [destruct ex; [|cbn [app]; rewrite <- ?app_assoc; reflexivity]|cbn [app]; rewrite <- ?app_assoc; reflexivity].
  cbn [app]. rewrite read_decimal, Nv. reflexivity.
Qed.
Lemma number_sound fparse x o r : number fparse x = Ok (o, r) -> exists t, x = t ++ r /\ json fparse t o.
Proof.
  unfold number. destruct (take_sign x) as [sg r0] eqn:S. destruct (take_int r0) as [ds r1] eqn:I. destruct ds as [|d ds]; [discriminate|]. destruct (take_frac r1) as [fr r2] eqn:F.
  destruct (take_exp r2) as [ex r3] eqn:X. intros E. injection E as <- <-. destruct (sign_split _ _ _ S) as (-> & Sg). destruct (int_split _ _ _ I ltac:(discriminate)) as (-> & Nt).
  destruct (frac_split _ _ _ F) as (-> & Ff). destruct (exp_split _ _ _ X) as (-> & Xe). exists (sg ++ (d :: ds) ++ fr ++ ex). split; [rewrite <- !app_assoc; reflexivity|].
  assert (P : int_part (sg ++ d :: ds) (match sg with [] => read_int (d :: ds) | _ => (- read_int (d :: ds))%Z end)).
  { destruct Sg as [->| ->]; rewrite (read_decimal (d :: ds)); [left; exact Nt|right]. exists (d :: ds), (decimal (d :: ds)). auto. }
  destruct (fr ++ ex) as [|z zs] eqn:Z.
  - apply app_eq_nil in Z. destruct Z as [-> ->]. cbn [app]. rewrite ?app_nil_r. apply js_int. exact P.
  - assert (T : float_text (sg ++ (d :: ds) ++ z :: zs)).
    { eexists (sg ++ d :: ds), _, fr, ex. split; [exact P|]. split; [exact Ff|]. split; [exact Xe|]. split; [rewrite Z; discriminate|]. rewrite Z, <- app_assoc. reflexivity. }
    clear S I F X. destruct fr; [destruct ex; [discriminate Z|]|]; exact (js_float _ _ T).
Qed.
Lemma number_fuel fparse x : number fparse x <> Err OutOfFuel.
Proof. unfold number. destruct (take_sign x) as [sg r], (take_int r) as [[|d ds] r1]; [discriminate|]. destruct (take_frac r1) as [fr r2], (take_exp r2). discriminate. Qed.
