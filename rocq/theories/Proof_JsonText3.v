(** What json.dumps writes is in the grammar and is read back. *)
From Verif Require Import PyBase PyBaseFacts Model_Msgpack Model_JsonText Spec_Printout Spec_JsonText Proof_JsonText Proof_JsonText2.
From Verif Require Model_Printout Proof_Xml Spec_Xml.
From Verif Require Import Proof_Msgpack.
Local Open Scope N_scope.

(** ** Strings *)
Lemma hexd_ok n : n < 16 -> hex_digit (hexd n) n.
Proof. intros H. unfold hexd, hex_digit. destruct (N.ltb_spec n 10); lia. Qed.
Lemma uesc_unit c : c < 65536 -> unit_text (uesc c) c.
Proof.
  intros H. exists (hexd (c / 4096 mod 16)), (hexd (c / 256 mod 16)), (hexd (c / 16 mod 16)), (hexd (c mod 16)), (c / 4096 mod 16), (c / 256 mod 16), (c / 16 mod 16), (c mod 16).
  split; [reflexivity|]. repeat (split; [apply hexd_ok, N.mod_lt; discriminate|]). 
  replace (c / 4096 mod 16) with (c / 4096) by (symmetry; apply N.mod_small, N.div_lt_upper_bound; lia).
  replace (c / 4096) with (c / 16 / 16 / 16) by (rewrite !N.div_div by discriminate; reflexivity). replace (c / 256) with (c / 16 / 16) by (rewrite !N.div_div by discriminate; reflexivity).
  assert (E1 := N.div_mod' c 16). assert (E2 := N.div_mod' (c / 16) 16). assert (E3 := N.div_mod' (c / 16 / 16) 16).
  set (a := c / 16 / 16 / 16) in *. set (b := c / 16 / 16) in *. set (e := c / 16) in *. set (m1 := c mod 16) in *. set (m2 := e mod 16) in *. set (m3 := b mod 16) in *. clearbody a b e m1 m2 m3. lia.
Qed.
(** the kinds of characters *)
Lemma esc_cases c : (exists e, In (e, c) escapes /\ esc_char c = [92; e]) \/ (32 <= c <= 126 /\ c <> 34 /\ c <> 92 /\ esc_char c = [c]) \/ (c < 65536 /\ esc_char c = uesc c) \/
  (65536 <= c /\ esc_char c = uesc (55296 + (c - 65536) / 1024 mod 1024) ++ uesc (56320 + (c - 65536) mod 1024)).
Proof.
  unfold esc_char. repeat match goal with |- context [if c =? ?k then _ else _] => destruct (N.eqb_spec c k) as [->|]; [left; eexists; split; [|reflexivity]; cbn; tauto|] end.
  right. destruct (N.leb_spec 32 c); destruct (N.leb_spec c 126); cbn [andb]; try (left; repeat split; (lia || reflexivity)); right; (destruct (N.ltb_spec c 65536); [left|right]; split; (lia || reflexivity)).
Qed.
Lemma pair_units c : 65536 <= c < 0x110000 -> let u := 55296 + (c - 65536) / 1024 mod 1024 in let w := 56320 + (c - 65536) mod 1024 in
  high u /\ low w /\ (u - 55296) * 1024 + (w - 56320) + 65536 = c /\ u < 65536 /\ w < 65536.
Proof.
  intros H u w. assert (M : (c - 65536) / 1024 mod 1024 = (c - 65536) / 1024) by (apply N.mod_small, N.div_lt_upper_bound; lia). subst u w. rewrite M.
  assert (E := N.div_mod' (c - 65536) 1024). assert (L := N.mod_lt (c - 65536) 1024 ltac:(discriminate)). assert (L2 : (c - 65536) / 1024 < 1024) by (apply N.div_lt_upper_bound; lia).
  set (q := (c - 65536) / 1024) in *. set (m := (c - 65536) mod 1024) in *. clearbody q m. clear M. unfold high, low. lia.
Qed.
Lemma esc_pair c : 65536 <= c < 0x110000 -> exists u w, esc_char c = uesc u ++ uesc w /\ high u /\ low w /\ (u - 55296) * 1024 + (w - 56320) + 65536 = c /\ u < 65536 /\ w < 65536.
Proof.
  intros H. assert (P := pair_units c H). cbv zeta in P. destruct (esc_cases c) as [(e & I & Q)|[(B & _)|[(B & _)|(B & Q)]]]; [|lia|lia|eexists _, _; split; [exact Q|exact P]].
  exfalso. cbn in I. repeat (destruct I as [I|I]; [injection I as _ <-; destruct H; lia|]). contradiction.
Qed.
Lemma first_unit x : text_safe x -> forall y w z, flat_map esc_char x = y ++ z -> unit_text y w -> low w -> exists d r, x = d :: r /\ low d.
Proof.
  intros Sx y w z E U L. assert (R := unit_read _ _ z U). rewrite <- E in R. destruct Sx as [|d r Hd _ _]; [discriminate R|]. exists d, r. split; [reflexivity|]. cbn [flat_map] in R.
  destruct (esc_cases d) as [(e & I & Q)|[(B & _ & N2 & Q)|[(B & Q)|(B & Q)]]]; rewrite Q in R.
  - cbn [app read_uesc N.eqb Pos.eqb andb] in R. apply escape_not_u in I. destruct (N.eqb_spec e 117); [contradiction|discriminate].
  - cbn [app] in R. unfold read_uesc in R. destruct (flat_map esc_char r) as [|b q]; [discriminate|]. destruct (N.eqb_spec d 92); [contradiction|discriminate].
  - rewrite (unit_read _ _ _ (uesc_unit d B)) in R. injection R as -> _. exact L.
  - rewrite <- Q in R. destruct (esc_pair d (conj B Hd)) as (u & w' & Q' & H1 & _ & _ & H2 & _). rewrite Q', <- app_assoc in R. rewrite (unit_read _ _ _ (uesc_unit _ H2)) in R. injection R as R _. subst u. clear - H1 L. unfold high, low in *. lia.
Qed.
Lemma chars_escaped x : text_safe x -> chars (flat_map esc_char x) x.
Proof.
  induction 1 as [|c x Hc P Sx IH]; [constructor|]. cbn [flat_map]. destruct (esc_cases c) as [(e & I & Q)|[(B & N1 & N2 & Q)|[(B & Q)|(B & Q)]]].
  - rewrite Q. cbn [app]. apply ch_escape; assumption.
  - rewrite Q. cbn [app]. apply ch_plain; [lia|assumption..].
  - rewrite Q. apply ch_unit; [apply uesc_unit, B| |exact IH]. intros (Hh & y & w & z & E & U & L). apply P. split; [exact Hh|]. apply (first_unit x Sx y w z E U L).
  - clear Q. destruct (esc_pair c (conj B Hc)) as (u & w & Q & H1 & H2 & H3 & H4 & H5). rewrite Q, <- app_assoc, <- H3. apply ch_pair; [apply uesc_unit, H4|apply uesc_unit, H5|exact H1|exact H2|exact IH].
Qed.
Lemma quote_json fparse x : text_safe x -> json fparse (quote x) (MStr x).
Proof. intros H. apply (js_str fparse _ _ (chars_escaped x H)). Qed.

(** ** Numbers *)
Lemma int_json i : int_part (Model_Printout.str_int i) i.
Proof.
  assert (H : Spec_Xml.int_text i (Model_Printout.str_int i)) by exact (Proof_Xml.str_int_text i). unfold Spec_Xml.int_text in H. destruct (Z.ltb_spec i 0).
  - destruct H as (y & -> & E & F & Ne & Z0). right. exists y, (- i)%Z. split; [reflexivity|]. split; [|lia]. repeat split; auto. intros K. apply Z0, K.
  - destruct H as (E & F & Ne & Z0). left. repeat split; auto. intros K. apply Z0, K.
Qed.
Lemma float_kinds b : json_safe (MFloat b) -> (finite b /\ forall frepr, float_json frepr b = frepr b) \/
  (b = 0x7ff8000000000000 /\ forall frepr, float_json frepr b = s "NaN") \/ (b = 0x7ff0000000000000 /\ forall frepr, float_json frepr b = s "Infinity") \/
  (b = 0xfff0000000000000 /\ forall frepr, float_json frepr b = s "-Infinity").
Proof.
  intros H. inversion H as [| | |b' K E| | |]; subst b'. destruct K as [K|[<-|[<-|[<-|[]]]]]; [left|right; left; split; reflexivity|right; right; left; split; reflexivity|right; right; right; split; reflexivity].
  split; [exact K|]. intros frepr. destruct K as [_ K]. unfold float_json, is_nan. destruct (N.eqb_spec (b / 2 ^ 52 mod 2048) 2047); [contradiction|]. cbn [andb].
  destruct (N.eqb_spec b pos_inf) as [->|]; [exfalso; apply K; reflexivity|]. destruct (N.eqb_spec b neg_inf) as [->|]; [exfalso; apply K; reflexivity|reflexivity].
Qed.

(** ** Values *)
Lemma Forall2_impl {A B} (P Q : A -> B -> Prop) : (forall x y, P x y -> Q x y) -> forall l r, Forall2 P l r -> Forall2 Q l r.
Proof. intros H l r F. induction F; constructor; auto. Qed.
Lemma each_Forall2 {A B} (f : A -> res B) l r : each f l = Ok r <-> Forall2 (fun x y => f x = Ok y) l r.
Proof.
  revert r. induction l as [|x l IH]; intros r; cbn [each]; split; intros H.
  - apply Ok_inj in H. subst r. constructor.
  - inversion H. reflexivity.
  - fold (each f) in H. destruct (f x) as [y|] eqn:E; [|discriminate]. cbn [rbind] in H. destruct (each f l) as [ys|] eqn:E2; [|discriminate]. cbn [rbind] in H. apply Ok_inj in H. subst r. constructor; [exact E|]. apply IH. reflexivity.
  - fold (each f). inversion H as [|? y ? ys E F]; subst. rewrite E. cbn [rbind]. apply IH in F. rewrite F. reflexivity.
Qed.
Lemma blank_space : blank [32].
Proof. constructor; [left; reflexivity|constructor]. Qed.
Lemma join_cons x y l : join_list (x :: y :: l) = x ++ s ", " ++ join_list (y :: l).
Proof. reflexivity. Qed.
Lemma elements_join fparse l ts : Forall2 (fun o t => json fparse t o) l ts -> l <> [] -> elements fparse (join_list ts) l.
Proof.
  induction 1 as [|o t l ts J F IH]; [intros H; contradiction|]. intros _. destruct F as [|o' t' l ts J' F].
  - assert (H := el_one fparse [] t [] o (Forall_nil _) J (Forall_nil _)). rewrite app_nil_r in H. exact H.
  - rewrite join_cons. change (s ", ") with (s "," ++ [32]). rewrite <- app_assoc. apply (el_more fparse [] t [] o); [constructor|exact J|constructor|]. apply elements_blank; [apply blank_space|]. apply IH. discriminate.
Qed.
Lemma members_join fparse d ts : Forall2 (fun kv t => exists v, t = quote (fst kv) ++ s ": " ++ v /\ text_safe (fst kv) /\ json fparse v (snd kv)) d ts -> d <> [] -> members fparse (join_list ts) d.
Proof.
  induction 1 as [|[k o] t d ts (v & -> & Sk & J) F IH]; [intros H; contradiction|]. intros _. cbn [fst snd] in *. apply chars_escaped in Sk. unfold quote. change (s ": ") with (s ":" ++ [32]). destruct F as [|kv' t' d ts J' F].
  - assert (H := mb_one fparse [] _ k [] [32] v o [] (Forall_nil _) Sk (Forall_nil _) blank_space J (Forall_nil _)). rewrite app_nil_r in H. cbn [app] in H. cbn [join_list Model_Printout.join].
    cbn [app]. rewrite <- !app_assoc. exact H.
  - rewrite join_cons. change (s ", ") with (s "," ++ [32]).
    assert (M : members fparse ([32] ++ join_list (t' :: ts)) (kv' :: d)) by (apply members_blank; [apply blank_space|apply IH; discriminate]).
    assert (H := mb_more fparse [] _ k [] [32] v o [] _ _ (Forall_nil _) Sk (Forall_nil _) blank_space J (Forall_nil _) M). cbn [app] in H. cbn [app]. rewrite <- !app_assoc. exact H.
Qed.
Lemma dict_of_same d : NoDup (map fst d) -> dict_of d = d.
Proof.
  induction d as [|[k v] d IH] using rev_ind; [reflexivity|]. intros ND. rewrite map_app in ND. cbn [map fst] in ND. rewrite dict_of_snoc. apply NoDup_remove in ND. rewrite app_nil_r in ND. destruct ND as [ND NI].
  rewrite IH by exact ND. apply dset_absent, NI.
Qed.
Lemma dumps_json frepr fparse o : floats_ok frepr fparse -> json_safe o -> exists t, dumps frepr o = Ok t /\ json fparse t o.
Proof.
  intros FO. induction o as [|b|i|b|x|x|l IH|d IH] using mobj_rect'; intros Sf.
  - eexists. split; [reflexivity|constructor].
  - eexists. split; [reflexivity|]. destruct b; constructor.
  - eexists. split; [reflexivity|]. apply js_int, int_json.
  - cbn [dumps]. eexists. split; [reflexivity|]. destruct (float_kinds b Sf) as [(F & E)|[(-> & E)|[(-> & E)|(-> & E)]]]; rewrite E; try constructor.
    destruct (FO b F) as [T P]. rewrite <- P at 2. apply js_float, T.
  - eexists. split; [reflexivity|]. inversion Sf; subst. apply quote_json. assumption.
  - inversion Sf.
  - inversion Sf as [| | | | |l' F|]; subst. assert (G : exists ts, Forall2 (fun o t => dumps frepr o = Ok t /\ json fparse t o) l ts).
    { clear Sf. induction l as [|o l IHl]; [exists []; constructor|]. inversion IH; inversion F; subst. destruct IHl as (ts & G); [assumption..|]. destruct H1 as (t & G1); [assumption|]. exists (t :: ts). constructor; assumption. }
    destruct G as (ts & G). cbn [dumps]. assert (E : each (dumps frepr) l = Ok ts) by (apply each_Forall2; eapply Forall2_impl; [|exact G]; intros ? ? [A _]; exact A). rewrite E. cbn [rbind]. eexists. split; [reflexivity|].
    destruct l as [|o l].
    + inversion G; subst. apply (js_arr0 fparse []). constructor.
    + apply (js_arr fparse). apply elements_join; [|discriminate]. eapply Forall2_impl; [|exact G]. intros ? ? [_ A]. exact A.
  - inversion Sf as [| | | | | |d' ND FK F]; subst.
    assert (G : exists ts, Forall2 (fun kv t => (let* v := dumps frepr (snd kv) in Ok (quote (fst kv) ++ s ": " ++ v)) = Ok t /\ exists v, t = quote (fst kv) ++ s ": " ++ v /\ text_safe (fst kv) /\ json fparse v (snd kv)) d ts).
    { clear Sf ND. induction d as [|[k o] d IHd]; [exists []; constructor|]. inversion IH; inversion F; inversion FK; subst. destruct IHd as (ts & G); [assumption..|]. cbn [snd fst] in *. destruct H1 as (t & G1 & G2); [assumption|].
      eexists (_ :: ts). constructor; [|exact G]. cbn [fst snd]. rewrite G1. cbn [rbind]. split; [reflexivity|]. eexists. split; [reflexivity|]. split; assumption. }
    destruct G as (ts & G). cbn [dumps]. match goal with |- context [each ?g d] => assert (E : each g d = Ok ts) by (apply each_Forall2; eapply Forall2_impl; [|exact G]; intros ? ? [A _]; exact A) end. rewrite E. cbn [rbind]. eexists. split; [reflexivity|].
    destruct d as [|kv d].
    + inversion G; subst. apply (js_map0 fparse []). constructor.
    + apply (js_map fparse _ (kv :: d)); [|apply pairs_iff, dict_of_same, ND]. apply members_join; [|discriminate]. eapply Forall2_impl; [|exact G]. intros ? ? [_ A]. exact A.
Qed.
Lemma loads_json fparse t o : json fparse t o -> loads fparse t = Ok o.
Proof. intros J. apply loads_iff. exists [], t, []. rewrite app_nil_r. split; [reflexivity|]. split; [constructor|]. split; [constructor|exact J]. Qed.
Lemma dumps_loads frepr fparse o : floats_ok frepr fparse -> json_safe o -> exists t, dumps frepr o = Ok t /\ loads fparse t = Ok o.
Proof. intros FO Sf. destruct (dumps_json frepr fparse o FO Sf) as (t & D & J). exists t. split; [exact D|]. apply loads_json, J. Qed.

(** ** Which values are written *)
Lemma dumps_bytes frepr o : (no_bytes o /\ exists t, dumps frepr o = Ok t) \/ (~ no_bytes o /\ dumps frepr o = Err TypeError).
Proof.
  induction o as [|b|i|b|x|x|l IH|d IH] using mobj_rect'; try (left; split; [constructor|eexists; reflexivity]).
  - right. split; [intros H; inversion H|reflexivity].
  - cbn [dumps]. assert (G : (Forall no_bytes l /\ exists ts, each (dumps frepr) l = Ok ts) \/ (~ Forall no_bytes l /\ each (dumps frepr) l = Err TypeError)).
    { induction IH as [|o l H F IHl]; [left; split; [constructor|eexists; reflexivity]|]. cbn [each]. fold (each (dumps frepr)). destruct H as [[A (t & ->)]|[A ->]]; cbn [rbind].
      - destruct IHl as [[B (ts & ->)]|[B ->]]; cbn [rbind]; [left; split; [constructor; assumption|eauto]|right; split; [|reflexivity]]. intros K. inversion K. contradiction.
      - right. split; [|reflexivity]. intros K. inversion K. contradiction. }
    destruct G as [[A (ts & ->)]|[A ->]]; cbn [rbind]; [left; split; [constructor; exact A|eauto]|right; split; [|reflexivity]]. intros K. inversion K. contradiction.
  - cbn [dumps]. match goal with |- context [each ?g d] => assert (G : (Forall no_bytes (map snd d) /\ exists ts, each g d = Ok ts) \/ (~ Forall no_bytes (map snd d) /\ each g d = Err TypeError)) end.
    { induction d as [|[k o] d IHd]; [left; split; [constructor|eexists; reflexivity]|]. inversion IH as [|? ? H F]; subst. specialize (IHd F). cbn [each map fst snd] in *.
      match goal with |- context [?g d] => change (g d) with (each (fun kv => let* v := dumps frepr (snd kv) in Ok (quote (fst kv) ++ s ": " ++ v)) d) end. destruct H as [[A (t & ->)]|[A ->]]; cbn [rbind].
      - destruct IHd as [[B (ts & ->)]|[B ->]]; cbn [rbind]; [left; split; [constructor; assumption|eauto]|right; split; [|reflexivity]]. intros K. inversion K. contradiction.
      - right. split; [|reflexivity]. intros K. inversion K. contradiction. }
    destruct G as [[A (ts & ->)]|[A ->]]; cbn [rbind]; [left; split; [constructor; exact A|eauto]|right; split; [|reflexivity]]. intros K. inversion K. contradiction.
Qed.

(** ** Printable ASCII *)
Lemma printable_app x y : printable x -> printable y -> printable (x ++ y).
Proof. intros. apply Forall_app. split; assumption. Qed.
Lemma hexd_printable n : n < 16 -> 32 <= hexd n <= 126.
Proof. intros H. unfold hexd. destruct (N.ltb_spec n 10); lia. Qed.
Lemma uesc_printable c : printable (uesc c).
Proof. unfold uesc, hex4. repeat (constructor; [first [apply hexd_printable, N.mod_lt; discriminate|lia]|]). constructor. Qed.
Lemma quote_printable x : printable (quote x).
Proof.
  unfold quote. constructor; [lia|]. apply printable_app; [|constructor; [lia|constructor]]. induction x as [|c x IH]; [constructor|]. cbn [flat_map]. apply printable_app; [|exact IH].
  destruct (esc_cases c) as [(e & I & ->)|[(B & N1 & N2 & ->)|[(B & ->)|(B & ->)]]].
  - constructor; [lia|]. constructor; [|constructor]. cbn in I. repeat (destruct I as [I|I]; [injection I as <- _; lia|]). contradiction.
  - constructor; [lia|constructor].
  - apply uesc_printable.
  - apply printable_app; apply uesc_printable.
Qed.
Lemma join_printable ts : Forall printable ts -> printable (join_list ts).
Proof.
  induction 1 as [|t ts H F IH]; [constructor|]. destruct ts as [|t' ts]; [exact H|]. rewrite join_cons. apply printable_app; [exact H|]. apply printable_app; [|exact IH]. repeat (constructor; [split; vm_compute; discriminate|]). constructor.
Qed.
Lemma digits_printable x : Forall is_digit x -> printable x.
Proof. intros F. eapply Forall_impl; [|exact F]. intros c H. unfold is_digit in H. lia. Qed.
Lemma int_printable a i : int_part a i -> printable a.
Proof. intros [(_ & F & _)|(y & n & -> & (_ & F & _) & _)]; [apply digits_printable, F|]. constructor; [lia|apply digits_printable, F]. Qed.
Lemma float_printable x : float_text x -> printable x.
Proof.
  intros (a & i & fr & ex & Ha & Hf & He & _ & ->). apply printable_app; [apply (int_printable _ _ Ha)|]. apply printable_app.
  - destruct Hf as [->|(ds & _ & F & ->)]; [constructor|]. constructor; [lia|apply digits_printable, F].
  - destruct He as [->|(e & sg & ds & E & I & _ & F & ->)]; [constructor|]. constructor; [lia|]. apply printable_app; [|apply digits_printable, F].
    destruct I as [<-|[<-|[<-|[]]]]; repeat constructor; lia.
Qed.
(** a 64-bit float is finite, an infinity or not a number *)
Lemma float_cases b : b < 2 ^ 64 -> finite b \/ is_nan b = true \/ b = pos_inf \/ b = neg_inf.
Proof.
  intros H. destruct (N.eq_dec (b / 2 ^ 52 mod 2048) 2047) as [E|E]; [|left; split; assumption]. right. unfold is_nan. rewrite E. cbn [N.eqb Pos.eqb andb].
  destruct (N.eqb_spec (b mod 2 ^ 52) 0) as [Z0|]; [right|left; reflexivity]. assert (D := N.div_mod' b (2 ^ 52)). rewrite Z0 in D. assert (D2 := N.div_mod' (b / 2 ^ 52) 2048). rewrite E in D2.
  assert (L : b / 2 ^ 52 < 4096) by (apply N.div_lt_upper_bound; [discriminate|]; exact H). assert (L2 : b / 2 ^ 52 / 2048 < 2) by (apply N.div_lt_upper_bound; [discriminate|]; exact L).
  assert (C : b / 2 ^ 52 / 2048 = 0 \/ b / 2 ^ 52 / 2048 = 1) by (revert L2; generalize (b / 2 ^ 52 / 2048); intros q L2; lia). destruct C as [C|C]; rewrite C in D2; rewrite D2 in D; [left|right]; rewrite D; vm_compute; reflexivity.
Qed.
Lemma float_json_printable frepr fparse b : floats_ok frepr fparse -> b < 2 ^ 64 -> printable (float_json frepr b).
Proof.
  intros FO H. unfold float_json. destruct (is_nan b) eqn:E1; [|destruct (N.eqb_spec b pos_inf) as [|E2]; [|destruct (N.eqb_spec b neg_inf) as [|E3]]]; try (repeat (constructor; [split; vm_compute; discriminate|]); constructor).
  destruct (float_cases b H) as [F|[F|[F|F]]]; try congruence. apply float_printable, FO, F.
Qed.
(** the floats in it are 64-bit patterns *)
Lemma dumps_printable frepr fparse o : floats_ok frepr fparse -> Spec_Msgpack.python_value o -> forall t, dumps frepr o = Ok t -> printable t.
Proof.
  intros FO. induction o as [|b|i|b|x|x|l IH|d IH] using mobj_rect'; intros V t E; cbn [dumps] in E.
  - apply Ok_inj in E. subst t. repeat (constructor; [split; vm_compute; discriminate|]); constructor.
  - apply Ok_inj in E. subst t. destruct b; repeat (constructor; [split; vm_compute; discriminate|]); constructor.
  - apply Ok_inj in E. subst t. apply (int_printable _ i), int_json.
  - apply Ok_inj in E. subst t. inversion V; subst. apply (float_json_printable _ fparse); assumption.
  - apply Ok_inj in E. subst t. apply quote_printable.
  - discriminate.
  - destruct (each (dumps frepr) l) as [ts|] eqn:Ee; [|discriminate]. cbn [rbind] in E. apply Ok_inj in E. subst t. apply each_Forall2 in Ee. inversion V; subst.
    constructor; [lia|]. apply printable_app; [|constructor; [lia|constructor]]. apply join_printable. clear V. revert IH H0. induction Ee as [|o t l ts D F IHe]; intros IH Vl; [constructor|].
    inversion IH; inversion Vl; subst. constructor; eauto.
  - match type of E with context [each ?g d] => destruct (each g d) as [ts|] eqn:Ee; [|discriminate] end. cbn [rbind] in E. apply Ok_inj in E. subst t. apply each_Forall2 in Ee. inversion V; subst.
    constructor; [lia|]. apply printable_app; [|constructor; [lia|constructor]]. apply join_printable. clear V H0. revert IH H1. induction Ee as [|[k o] t l ts D F IHe]; intros IH Vl; [constructor|].
    inversion IH; inversion Vl; subst. constructor; [|auto]. cbn [fst snd] in *. destruct (dumps frepr o) as [v|] eqn:Ev; [|discriminate]. cbn [rbind] in D. apply Ok_inj in D. subst t.
    apply printable_app; [apply quote_printable|]. apply printable_app; [repeat (constructor; [split; vm_compute; discriminate|]); constructor|]. eauto.
Qed.

(** ** Every other text is a ValueError *)
Definition soft {A} (r : res A) : Prop := match r with Ok _ => True | Err e => e = ValueError \/ e = OutOfFuel end.
Lemma rbind_soft {A B} (q : res A) (k : A -> res B) : soft q -> (forall a, soft (k a)) -> soft (rbind q k).
Proof. destruct q; intros H K; [apply K|exact H]. Qed.
Lemma push_soft c q : soft q -> soft (push c q).
Proof. intros H. apply rbind_soft; [exact H|]. intros [a b]. exact I. Qed.
Lemma scan_soft f : forall x, soft (scan f x).
Proof.
  induction f as [|f IH]; intros x; [right; reflexivity|]. cbn [scan]. destruct x as [|c r]; [left; reflexivity|]. destruct (c =? 34); [exact I|]. destruct (c =? 92).
  - destruct r as [|e r']; [left; reflexivity|]. destruct (e =? 117).
    + destruct (read_hex4 r') as [[u r1]|]; [|left; reflexivity]. destruct (second_half u r1) as [[v r2]|]; apply push_soft, IH.
    + destruct (simple_escape e); [apply push_soft, IH|left; reflexivity].
  - destruct (c <? 32); [left; reflexivity|apply push_soft, IH].
Qed.
Lemma number_soft fparse x : soft (number fparse x).
Proof. unfold number. destruct (take_sign x) as [sg r]. destruct (take_int r) as [ds r1]. destruct ds; [left; reflexivity|]. destruct (take_frac r1) as [fr r2]. destruct (take_exp r2) as [ex r3]. exact I. Qed.
Lemma grammar_soft fparse f : (forall x, soft (jvalue fparse f x)) /\ (forall x, soft (jelems fparse f x)) /\ (forall x, soft (jmembers fparse f x)).
Proof.
  induction f as [|f (IHv & IHe & IHm)]; [repeat split; intros; right; reflexivity|]. split; [|split]; intros x.
  - destruct x as [|c x]; [left; reflexivity|]. cbn [jvalue]. destruct (c =? 34); [apply rbind_soft; [apply scan_soft|intros []; exact I]|]. destruct (c =? 91); [|destruct (c =? 123)].
    + destruct (skip_ws x) as [|d r1]; [left; reflexivity|]. destruct (d =? 93); [exact I|]. apply rbind_soft; [apply IHe|intros []; exact I].
    + destruct (skip_ws x) as [|d r1]; [left; reflexivity|]. destruct (d =? 125); [exact I|]. apply rbind_soft; [apply IHm|intros []; exact I].
    + destruct (constant constants (c :: x)); [exact I|apply number_soft].
  - cbn [jelems]. apply rbind_soft; [apply IHv|]. intros [v r]. destruct (skip_ws r) as [|c r1]; [left; reflexivity|]. destruct (c =? 44); [apply rbind_soft; [apply IHe|intros []; exact I]|]. destruct (c =? 93); [exact I|left; reflexivity].
  - cbn [jmembers]. destruct x as [|q x]; [left; reflexivity|]. destruct (q =? 34); [|left; reflexivity]. apply rbind_soft; [apply scan_soft|]. intros [k r1]. destruct (skip_ws r1) as [|c r2]; [left; reflexivity|].
    destruct (c =? 58); [|left; reflexivity]. apply rbind_soft; [apply IHv|]. intros [v r3]. destruct (skip_ws r3) as [|e r4]; [left; reflexivity|]. destruct (e =? 44); [apply rbind_soft; [apply IHm|intros []; exact I]|].
    destruct (e =? 125); [exact I|left; reflexivity].
Qed.
Lemma loads_error fparse x e : loads fparse x = Err e -> e = ValueError.
Proof.
  intros E. assert (F := loads_fuel fparse x). assert (H : soft (loads fparse x)).
  { unfold loads. apply rbind_soft; [apply grammar_soft|]. intros [o r]. destruct (skip_ws r); [exact I|left; reflexivity]. }
  rewrite E in F, H. destruct H as [->| ->]; [reflexivity|contradiction].
Qed.
(** a text stands for one value *)
Lemma json_unique fparse t o o' : json fparse t o -> json fparse t o' -> o = o'.
Proof. intros A B. apply loads_json in A, B. congruence. Qed.
