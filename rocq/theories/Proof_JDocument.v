(** Compartments of written documents. *)
From Verif Require Import PyBase PyBaseFacts Model_Text Model_Heap Model_Layer Model_Types Model_Msgpack Model_Document Model_Codec Model_JUnits Model_JStream Model_JText Model_JCodec Model_JEncode Model_JDocument
  Spec_Layer Spec_Types Spec_Msgpack Spec_Document Spec_Codec Spec_JUnits Spec_JCodec Spec_JEncode Spec_JDocument
  Proof_Msgpack Proof_Layout Proof_Codec2 Proof_Codec3 Proof_JCodec Proof_JCodec2 Proof_JEncode Proof_JEncode2 Proof_JEncode3.
Local Open Scope Z_scope.

(** what both ports agree on *)
Record parts_known (bytes : list N) (n : nat) (P : dict jv -> Prop) (Q : dict (dict jdtype) -> Prop) (n1 b1 sc n2 b2 : list N) (ls : list (list N * list N)) (js : dict jv) (sch : dict (dict jdtype)) : Prop := {
  pk_bytes : bytes = magic ++ (n1 ++ b1) ++ sc ++ (n2 ++ b2) ++ List.concat (map (fun x => fst x ++ snd x) ls);
  pk_count : length ls = n;
  pk_short : zlen bytes < 2147483648;
  pk_n1 : pack (MInt (zlen b1)) = Ok n1;
  pk_map : exists ps, pack (MMap ps) = Ok b1;
  pk_props : forall rest, jread_props (n1 ++ b1 ++ rest) = Ok (js, rest);
  pk_schema : forall rest, jread_schema (sc ++ rest) = Ok (sch, rest);
  pk_n2 : pack (MInt (zlen b2)) = Ok n2;
  pk_ls : Forall (fun x => pack (MInt (zlen (snd x))) = Ok (fst x)) ls;
  pk_P : P js; pk_Q : Q sch }.
Lemma layers_split {A} (f : A -> list mobj) (l : list A) : forall b, concatM (fun x => section (f x)) l = Ok b -> exists ls, b = List.concat (map (fun x => fst x ++ snd x) ls) /\ length ls = length l /\ Forall (fun x => pack (MInt (zlen (snd x))) = Ok (fst x)) ls.
Proof.
  induction l as [|x l IH]; intros b H.
  - apply Ok_inj in H. subst b. exists []. repeat split. constructor.
  - apply concatM_cons in H. destruct H as (p1 & p2 & E1 & E2 & ->). apply section_inv in E1. destruct E1 as (n & body & z & Pn & Pb & -> & ->). destruct (IH _ E2) as (ls & -> & L & F). exists ((n, body) :: ls). cbn [map List.concat fst snd length]. split; [reflexivity|]. split; [congruence|]. constructor; assumption.
Qed.
Lemma written_parts bytes n P Q : written bytes n P Q -> exists n1 b1 sc n2 b2 ls js sch, parts_known bytes n P Q n1 b1 sc n2 b2 ls js sch.
Proof.
  intros [h d ex tv h1 bytes0 D H RD Sb|j bytes0 D H].
  - destruct (msgpack_encode_inv _ _ _ _ _ _ H) as (ed & E & L). destruct (codec_encode_inv _ _ _ _ _ _ E) as (offsets & Ec & Ft & Fl & Ep).
    destruct (layout_inv _ _ L) as (n1 & k1 & b1 & sc & n2 & k2 & b2 & bl & H1 & -> & H2 & H3 & H4 & -> & H5 & H6 & ->). clear L H.
    pose proof (short_r _ _ Sb) as S0. pose proof (short_r _ _ S0) as S1. pose proof (short_l _ _ S1) as Sb1. pose proof (short_r _ _ S1) as S2. pose proof (short_l _ _ S2) as Ssc.
    destruct (schema_java h d ex tv h1 ed D E RD) as (sch & Fs1 & Fs2).
    destruct (jr_props h d RD) as (ps & Eps & Hps). assert (Hj : exists js, Forall2 (fun ko kj => fst kj = fst ko /\ java_prop (snd ko) (snd kj)) ps js).
    { clear - Hps. induction ps as [|[k o] ps IH]; [exists []; constructor|]. destruct IH as [js F]; [intros k' o' I; apply (Hps k' o'); right; exact I|]. destruct (Hps k o (or_introl eq_refl)) as [v Hv]. exists ((k, v) :: js). constructor; auto. }
    destruct Hj as [js Fjs]. pose proof (do_props h d D) as Pp. rewrite Ep, Eps in H2. rewrite Eps in Pp.
    destruct (names_back h d ex tv h1 ed D E) as [Nl Nt]. destruct (layers_split layer_objs _ _ H6) as (ls & -> & Ll & Fls).
    exists n1, b1, sc, n2, b2, ls, js, sch. split; try assumption.
    + rewrite <- !app_assoc. reflexivity.
    + rewrite Ll. symmetry. eapply Forall2_length. exact Fl.
    + eauto.
    + intros rest. apply (jread_props_pack ps js n1 b1 _ Fjs Pp H1 H2 Sb1).
    + intros rest. apply (jread_schema_pack _ sch sc _ H3 Ssc Fs1). rewrite Nl. apply (do_layers h d D).
    + eauto.
  - destruct (java_layout j bytes0 (proj2 (jk_props j D)) (apart j D) H) as (T & C & L & Sb). clear H.
    destruct (layout_inv _ _ L) as (n1 & k1 & b1 & sc & n2 & k2 & b2 & bl & H1 & -> & H2 & H3 & H4 & -> & H5 & H6 & ->). clear L. cbn [edoc_of ed_props ed_texts ed_layers] in *.
    pose proof (short_r _ _ Sb) as S0. pose proof (short_r _ _ S0) as S1. pose proof (short_l _ _ S1) as Sb1. pose proof (short_r _ _ S1) as S2. pose proof (short_l _ _ S2) as Ssc.
    destruct (schema_reread j T (jd_layers j) D (incl_refl _)) as (sch & Fs1 & Fs2).
    destruct (jk_props j D) as [NDp Hp]. destruct (choose_sobjs java_prop prop_again (jd_props j)) as (js & Fj1 & Fj2); [intros k v Hin; apply scalar_prop; eapply Hp; exact Hin|].
    destruct (layers_split layer_objs _ _ H6) as (ls & -> & Ll & Fls).
    exists n1, b1, sc, n2, b2, ls, js, sch. split; try assumption.
    + rewrite <- !app_assoc. reflexivity.
    + rewrite Ll. apply map_length.
    + eauto.
    + intros rest. apply (jread_props_pack (sobjs (jd_props j)) js n1 b1 _ Fj1 (sobjs_value _ NDp Hp) H1 H2 Sb1).
    + intros rest. apply (jread_schema_pack _ sch sc _ H3 Ssc Fs1). rewrite map_map. apply (jk_layers j D).
Qed.
Lemma zl_app {A} (a b : list A) : zlen (a ++ b) = zlen a + zlen b.
Proof. unfold zlen. rewrite app_length. lia. Qed.
Lemma md_section_pack n b rest : pack (MInt (zlen b)) = Ok n -> zlen b < 2147483648 -> md_section (n ++ b ++ rest) = Ok rest.
Proof.
  intros H S. pose proof (zlen_nonneg b). unfold md_section. rewrite (mu_int_pack _ _ _ H) by (unfold int_range; lia). cbn [rbind]. destruct (Z.ltb_spec (zlen b) 0); [lia|]. unfold mu_payload. rewrite take_app by reflexivity. reflexivity.
Qed.
Lemma firstn_pre {A} (a b : list A) n : zlen a = n -> firstn (Z.to_nat n) (a ++ b) = a.
Proof. intros <-. unfold zlen. rewrite Nat2Z.id, firstn_app, firstn_all, Nat.sub_diag. cbn [firstn]. apply app_nil_r. Qed.
Lemma skipn_pre {A} (a b : list A) n : zlen a = n -> skipn (Z.to_nat n) (a ++ b) = b.
Proof. intros <-. unfold zlen. rewrite Nat2Z.id, skipn_app, skipn_all, Nat.sub_diag. reflexivity. Qed.
Lemma copy_range_mid a x y p q : zlen a = p -> q = p + zlen x -> copy_range (a ++ x ++ y) p q = Ok x.
Proof.
  intros Ha ->. pose proof (zlen_nonneg x). pose proof (zlen_nonneg a). pose proof (zlen_nonneg y). unfold copy_range. destruct (Z.ltb_spec (p + zlen x) p); [lia|]. destruct (Z.ltb_spec p 0); [lia|]. destruct (Z.ltb_spec (zlen (a ++ x ++ y)) p); [rewrite !zl_app in *; lia|]. cbn [orb].
  replace (p + zlen x - p) with (zlen x) by lia. rewrite (skipn_pre _ _ _ Ha), <- app_assoc, firstn_pre by reflexivity. reflexivity.
Qed.
Lemma open_magic r : md_open (magic ++ r) = Ok (mkMD (magic ++ r) None None).
Proof. reflexivity. Qed.
Theorem header_check data : (exists m, md_open data = Ok m) <-> exists r, data = magic ++ r.
Proof.
  split; [|intros [r ->]; rewrite open_magic; eauto]. intros [m H]. unfold md_open in H. destruct (list_eqb N.eqb _ magic) eqn:E; [|discriminate H]. clear H.
  assert (G : firstn 4 (data ++ repeat 0%N 4) = magic).
  { revert E. generalize (firstn 4 (data ++ repeat 0%N 4)) magic. induction l as [|x l IH]; intros [|y q]; cbn [list_eqb]; try discriminate; [reflexivity|]. destruct (N.eqb_spec x y); [|discriminate]. subst. intros E. f_equal. apply IH. exact E. }
  clear E. unfold magic in *. destruct data as [|a [|b [|c [|e r]]]]; cbn in G; try discriminate G. injection G as -> -> -> ->. exists r. reflexivity.
Qed.
Theorem header_refused data : (forall r, data <> magic ++ r) -> md_open data = Err IOError.
Proof. intros H. destruct (md_open data) as [m|e] eqn:E; [destruct (proj1 (header_check data)) as [r Hr]; [eauto|destruct (H r Hr)]|]. unfold md_open in E. destruct (list_eqb _ _ _); [discriminate E|congruence]. Qed.
Lemma cons_eq {A} (a b : A) l m : a = b -> l = m -> a :: l = b :: m.
Proof. congruence. Qed.
Section Parts.
Variables (bytes : list N) (n : nat) (P : dict jv -> Prop) (Q : dict (dict jdtype) -> Prop) (n1 b1 sc n2 b2 : list N) (ls : list (list N * list N)) (js : dict jv) (sch : dict (dict jdtype)).
Hypothesis K : parts_known bytes n P Q n1 b1 sc n2 b2 ls js sch.
Let p := n1 ++ b1.
Let t := n2 ++ b2.
Lemma pk_small : zlen b1 < 2147483648 /\ zlen b2 < 2147483648 /\ Forall (fun x => zlen (snd x) < 2147483648) ls.
Proof.
  pose proof (pk_short _ _ _ _ _ _ _ _ _ _ _ _ K) as S. rewrite (pk_bytes _ _ _ _ _ _ _ _ _ _ _ _ K) in S. rewrite !zl_app in S.
  pose proof (zlen_nonneg n1). pose proof (zlen_nonneg b1). pose proof (zlen_nonneg sc). pose proof (zlen_nonneg n2). pose proof (zlen_nonneg b2). pose proof (zlen_nonneg (List.concat (map (fun x : list N * list N => fst x ++ snd x) ls))). change (zlen magic) with 4 in S.
  split; [lia|]. split; [lia|]. assert (G : zlen (List.concat (map (fun x : list N * list N => fst x ++ snd x) ls)) < 2147483648) by lia. clear - G. induction ls as [|[a b] l IH]; [constructor|]. cbn [map List.concat fst snd] in G. rewrite !zl_app in G.
  pose proof (zlen_nonneg a). pose proof (zlen_nonneg b). pose proof (zlen_nonneg (List.concat (map (fun x : list N * list N => fst x ++ snd x) l))). constructor; [cbn [snd]; lia|apply IH; lia].
Qed.
Let pos1 := 4 + zlen p.
Let pos2 := pos1 + zlen sc.
Let pos3 := pos2 + zlen t.
Lemma md_read_parts rest : md_read (bytes ++ rest) =
  match ls with
  | [] => match md_section rest with
          | Err e => (Some [4; pos1; pos1; pos2; pos2; pos3; pos3; 0], Some sch, Err e)
          | Ok r => (Some [4; pos1; pos1; pos2; pos2; pos3; pos3; zlen (bytes ++ rest) - zlen r], Some sch, Ok tt)
          end
  | x :: _ => (Some [4; pos1; pos1; pos2; pos2; pos3; pos3; pos3 + zlen (fst x ++ snd x)], Some sch, Ok tt)
  end.
Proof.
  destruct pk_small as (S1 & S2 & S3). pose proof (pk_ls _ _ _ _ _ _ _ _ _ _ _ _ K) as Fl. rewrite (pk_bytes _ _ _ _ _ _ _ _ _ _ _ _ K). rewrite <- !app_assoc. unfold md_read.
  set (data := magic ++ _). unfold mu_payload. replace (take 4 data) with (Ok (magic, n1 ++ b1 ++ sc ++ n2 ++ b2 ++ List.concat (map (fun x : list N * list N => fst x ++ snd x) ls) ++ rest)) by (symmetry; apply take_app; reflexivity).
  rewrite (md_section_pack _ _ _ (pk_n1 _ _ _ _ _ _ _ _ _ _ _ _ K) S1), (pk_schema _ _ _ _ _ _ _ _ _ _ _ _ K), (md_section_pack _ _ _ (pk_n2 _ _ _ _ _ _ _ _ _ _ _ _ K) S2).
  destruct ls as [|[a b] l].
  - cbn [map List.concat app] in *. destruct (md_section rest) as [r|e]; unfold md_eight; cbn [length Nat.sub repeat app];
    do 3 f_equal; unfold data, pos3, pos2, pos1, p, t; repeat (apply cons_eq; [rewrite ?zl_app; change (zlen magic) with 4; lia|]); reflexivity.
  - inversion Fl; inversion S3; subst. cbn [map List.concat fst snd] in *. rewrite <- !app_assoc. rewrite md_section_pack by assumption. unfold md_eight. cbn [length Nat.sub repeat app].
    do 3 f_equal; unfold data, pos3, pos2, pos1, p, t; repeat (apply cons_eq; [cbn [map List.concat fst snd]; rewrite ?zl_app; change (zlen magic) with 4; lia|]); reflexivity.
Qed.
End Parts.
(** ** documents with layers *)
Lemma jread_layers_schema texts sch : forall bs layers rest, jread_layers texts sch bs = Ok (layers, rest) -> map (fun kl => (fst kl, fst (snd kl))) layers = sch.
Proof.
  induction sch as [|[k fs] sch IH]; intros bs layers rest H; cbn [jread_layers] in H; [injection H as <- _; reflexivity|].
  destruct (jread_layer texts fs bs) as [[ns r]|e]; [|discriminate H]. cbn [rbind] in H. destruct (jread_layers texts sch r) as [[q r1]|e] eqn:E; [|discriminate H]. injection H as <- _. cbn [map fst snd]. rewrite (IH _ _ _ E). reflexivity.
Qed.
Lemma resolve_schema sizes : forall (layers ls : dict (dict jdtype * list (dict jv))), mapM (fun kl => let* ns := jresolve sizes (fst (snd kl)) (snd (snd kl)) in Ok (fst kl, (fst (snd kl), ns))) layers = Ok ls ->
  map (fun kl => (fst kl, fst (snd kl))) ls = map (fun kl => (fst kl, fst (snd kl))) layers.
Proof.
  induction layers as [|[k [fs ns]] layers IH]; intros ls H; cbn [mapM fst snd] in H; [injection H as <-; reflexivity|].
  destruct (jresolve sizes fs ns) as [ns'|e]; [|discriminate H]. cbn [rbind] in H. destruct (mapM _ layers) as [q|e] eqn:E; [|discriminate H]. injection H as <-. cbn [map fst snd]. rewrite (IH _ eq_refl). reflexivity.
Qed.
Lemma decode_parts bytes n P Q n1 b1 sc n2 b2 ls js sch rest k : parts_known bytes n P Q n1 b1 sc n2 b2 ls js sch -> java_decode (bytes ++ rest) = Ok k ->
  jd_props k = js /\ map (fun kl => (fst kl, fst (snd kl))) (jd_layers k) = sch.
Proof.
  intros K H. rewrite (pk_bytes _ _ _ _ _ _ _ _ _ _ _ _ K) in H. rewrite <- !app_assoc in H. unfold java_decode in H. unfold mu_payload in H. rewrite (take_app 4 magic) in H by reflexivity. cbn [rbind] in H.
  change (negb (list_eqb N.eqb magic magic)) with false in H. cbv iota in H. rewrite (pk_props _ _ _ _ _ _ _ _ _ _ _ _ K) in H. cbn [rbind] in H. rewrite (pk_schema _ _ _ _ _ _ _ _ _ _ _ _ K) in H. cbn [rbind] in H.
  destruct (jread_texts _) as [[tx r3]|e]; [|discriminate H]. cbn [rbind] in H. destruct (jread_layers tx sch r3) as [[layers r4]|e] eqn:E; [|discriminate H]. cbn [rbind] in H. cbv zeta in H.
  destruct (mapM _ layers) as [q|e] eqn:M; [|discriminate H]. injection H as <-. cbn [jd_props jd_layers]. split; [reflexivity|]. rewrite (resolve_schema _ _ _ M). eapply jread_layers_schema. exact E.
Qed.
Lemma window {A} (x y : list A) m : (length x <= m)%nat -> exists z, firstn m (x ++ y) = x ++ z.
Proof. intros H. rewrite firstn_app, firstn_all2 by assumption. eauto. Qed.
Lemma pack_len z b : pack (MInt z) = Ok b -> b <> [].
Proof. intros H E. subst b. apply pack_int_len in H. cbn in H. lia. Qed.
Lemma compartments_found_int bytes n P Q rest : written bytes n P Q -> (0 < n)%nat ->
  exists m m' p sc t l tail js sch, md_open (bytes ++ rest) = Ok m /\ md_schema m = None /\ bytes = magic ++ p ++ sc ++ t ++ l ++ tail /\ (tail = [] <-> n = 1%nat) /\
    (forall c, md_compartment c m = (m', Ok (part c p sc t l)) /\ md_compartment c m' = (m', Ok (part c p sc t l))) /\
    (forall beyond, md_properties beyond m = (m', Ok js) /\ md_properties beyond m' = (m', Ok js)) /\ md_schema m' = Some sch /\
    md_parse_props p = Ok js /\ md_parse_schema sc = Ok sch /\ P js /\ Q sch /\ (forall k, md_document m = Ok k -> jd_props k = js /\ map (fun kl => (fst kl, fst (snd kl))) (jd_layers k) = sch) /\
    (exists n1 b1 ps, p = n1 ++ b1 /\ pack (MInt (zlen b1)) = Ok n1 /\ pack (MMap ps) = Ok b1).
Proof.
  intros W Hn. destruct (written_parts _ _ _ _ W) as (n1 & b1 & sc & n2 & b2 & ls & js & sch & K). pose proof (pk_count _ _ _ _ _ _ _ _ _ _ _ _ K) as Ln. destruct ls as [|[n3 b3] ls]; [cbn [length] in Ln; lia|].
  pose proof (md_read_parts _ _ _ _ _ _ _ _ _ _ _ _ K rest) as R. cbn [fst snd] in R.
  pose proof (pk_bytes _ _ _ _ _ _ _ _ _ _ _ _ K) as B. cbn [map List.concat fst snd] in B. set (tail := List.concat (map (fun x : list N * list N => fst x ++ snd x) ls)) in *.
  set (p := n1 ++ b1) in *. set (t := n2 ++ b2) in *. set (l := n3 ++ b3) in *.
  set (poss := [4; 4 + zlen p; 4 + zlen p; 4 + zlen p + zlen sc; 4 + zlen p + zlen sc; 4 + zlen p + zlen sc + zlen t; 4 + zlen p + zlen sc + zlen t; 4 + zlen p + zlen sc + zlen t + zlen l]) in *.
  exists (mkMD (bytes ++ rest) None None), (mkMD (bytes ++ rest) (Some poss) (Some sch)), p, sc, t, l, tail, js, sch.
  assert (D1 : md_determine (mkMD (bytes ++ rest) None None) = (mkMD (bytes ++ rest) (Some poss) (Some sch), Ok tt)) by (unfold md_determine; cbn [md_pos md_data]; rewrite R; reflexivity).
  assert (D2 : md_determine (mkMD (bytes ++ rest) (Some poss) (Some sch)) = (mkMD (bytes ++ rest) (Some poss) (Some sch), Ok tt)) by reflexivity.
  assert (B' : bytes ++ rest = magic ++ p ++ sc ++ t ++ l ++ tail ++ rest) by (rewrite B, <- !app_assoc; reflexivity).
  split; [rewrite B'; apply open_magic|]. split; [reflexivity|]. split; [rewrite B, <- ?app_assoc; reflexivity|]. split.
  { rewrite <- Ln. unfold tail. pose proof (pk_ls _ _ _ _ _ _ _ _ _ _ _ _ K) as Fl. inversion Fl as [|? ? _ Fl']; subst. destruct ls as [|[a b] q]; [split; reflexivity|]. inversion Fl' as [|? ? Ha _]; subst. cbn [fst snd] in Ha. apply pack_len in Ha. split; [|discriminate].
    cbn [map List.concat fst snd]. intros E. destruct a; [congruence|discriminate E]. }
  assert (G : forall c, (let* a := md_at (mkMD (bytes ++ rest) (Some poss) (Some sch)) (md_start c) in let* b := md_at (mkMD (bytes ++ rest) (Some poss) (Some sch)) (md_start c + 1) in copy_range (bytes ++ rest) a b) = Ok (part c p sc t l)).
  { intros c. unfold md_at. cbn [md_pos rbind]. rewrite B'. destruct c; cbn [md_start Nat.add nth poss part].
    - apply copy_range_mid; [reflexivity|lia].
    - rewrite (app_assoc magic p). apply copy_range_mid; [rewrite zl_app; reflexivity|lia].
    - rewrite (app_assoc magic p), (app_assoc (magic ++ p) sc). apply copy_range_mid; [rewrite !zl_app; reflexivity|lia].
    - rewrite (app_assoc magic p), (app_assoc (magic ++ p) sc), (app_assoc ((magic ++ p) ++ sc) t). apply copy_range_mid; [rewrite !zl_app; reflexivity|lia]. }
  split; [intros c; unfold md_compartment; rewrite D1, D2; cbn [md_data]; rewrite G; auto|].
  assert (Pp : forall x, md_parse_props (p ++ x) = Ok js) by (intros x; unfold md_parse_props, p; rewrite <- app_assoc, (pk_props _ _ _ _ _ _ _ _ _ _ _ _ K); reflexivity).
  split.
  { intros beyond. assert (G2 : (let* a := md_at (mkMD (bytes ++ rest) (Some poss) (Some sch)) 0 in let* b := md_at (mkMD (bytes ++ rest) (Some poss) (Some sch)) 1 in md_parse_props (firstn (Z.to_nat b) (skipn (Z.to_nat a) ((bytes ++ rest) ++ beyond)))) = Ok js).
    { unfold md_at. cbn [md_pos rbind nth poss]. rewrite B', <- app_assoc, (skipn_pre magic) by reflexivity. rewrite <- app_assoc. destruct (window p ((sc ++ t ++ l ++ tail ++ rest) ++ beyond) (Z.to_nat (4 + zlen p))) as [z E]; [unfold zlen; lia|]. rewrite E. apply Pp. }
    unfold md_properties. rewrite D1, D2. cbn [md_data]. rewrite G2. auto. }
  split; [reflexivity|]. split; [rewrite <- (app_nil_r p); apply Pp|]. split; [unfold md_parse_schema; rewrite <- (app_nil_r sc), (pk_schema _ _ _ _ _ _ _ _ _ _ _ _ K); reflexivity|].
  split; [apply (pk_P _ _ _ _ _ _ _ _ _ _ _ _ K)|]. split; [apply (pk_Q _ _ _ _ _ _ _ _ _ _ _ _ K)|]. split; [intros k Hk; unfold md_document in Hk; cbn [md_data] in Hk; eapply decode_parts; eassumption|]. destruct (pk_map _ _ _ _ _ _ _ _ _ _ _ _ K) as [ps Hps]. exists n1, b1, ps. split; [reflexivity|]. split; [apply (pk_n1 _ _ _ _ _ _ _ _ _ _ _ _ K)|exact Hps].
Qed.
Theorem compartments_found bytes n P Q rest : written bytes n P Q -> (0 < n)%nat ->
  exists m m' p sc t l tail js sch, md_open (bytes ++ rest) = Ok m /\ md_schema m = None /\ bytes = magic ++ p ++ sc ++ t ++ l ++ tail /\ (tail = [] <-> n = 1%nat) /\
    (forall c, md_compartment c m = (m', Ok (part c p sc t l)) /\ md_compartment c m' = (m', Ok (part c p sc t l))) /\
    (forall beyond, md_properties beyond m = (m', Ok js) /\ md_properties beyond m' = (m', Ok js)) /\ md_schema m' = Some sch /\
    md_parse_props p = Ok js /\ md_parse_schema sc = Ok sch /\ P js /\ Q sch /\ (forall k, md_document m = Ok k -> jd_props k = js /\ map (fun kl => (fst kl, fst (snd kl))) (jd_layers k) = sch).
Proof.
  intros W Hn. destruct (compartments_found_int bytes n P Q rest W Hn) as (m & m' & p & sc & t & l & tail & js & sch & H1 & H2 & H3 & H4 & H5 & H6 & H7 & H8 & H9 & H10 & H11 & H12 & _).
  exists m, m', p, sc, t, l, tail, js, sch. repeat (split; [assumption|]). assumption.
Qed.
(** ** documents without layers *)
Theorem no_layers bytes P Q : written bytes 0 P Q ->
  exists m m' p sc t js sch, md_open bytes = Ok m /\ bytes = magic ++ p ++ sc ++ t /\
    (forall c, md_compartment c m = (m', Err OutOfData)) /\ (forall beyond, md_properties beyond m = (m', Err OutOfData)) /\
    (forall c, md_compartment c m' = (m', match c with CLayers => Err ValueError | _ => Ok (part c p sc t []) end)) /\
    (forall beyond, md_properties beyond m' = (m', Ok js)) /\ md_schema m' = Some sch /\ P js /\ Q sch.
Proof.
  intros W. destruct (written_parts _ _ _ _ W) as (n1 & b1 & sc & n2 & b2 & ls & js & sch & K). pose proof (pk_count _ _ _ _ _ _ _ _ _ _ _ _ K) as Ln. destruct ls as [|x ls]; [|discriminate Ln].
  pose proof (md_read_parts _ _ _ _ _ _ _ _ _ _ _ _ K []) as R. rewrite app_nil_r in R. change (md_section []) with (@Err (list N) OutOfData) in R. cbv iota in R.
  pose proof (pk_bytes _ _ _ _ _ _ _ _ _ _ _ _ K) as B. cbn [map List.concat] in B. rewrite app_nil_r in B. set (p := n1 ++ b1) in *. set (t := n2 ++ b2) in *.
  set (poss := [4; 4 + zlen p; 4 + zlen p; 4 + zlen p + zlen sc; 4 + zlen p + zlen sc; 4 + zlen p + zlen sc + zlen t; 4 + zlen p + zlen sc + zlen t; 0]) in *.
  exists (mkMD bytes None None), (mkMD bytes (Some poss) (Some sch)), p, sc, t, js, sch.
  assert (D1 : md_determine (mkMD bytes None None) = (mkMD bytes (Some poss) (Some sch), Err OutOfData)) by (unfold md_determine; cbn [md_pos md_data]; rewrite R; reflexivity).
  assert (D2 : md_determine (mkMD bytes (Some poss) (Some sch)) = (mkMD bytes (Some poss) (Some sch), Ok tt)) by reflexivity.
  split; [rewrite B; apply open_magic|]. split; [exact B|]. split; [intros c; unfold md_compartment; rewrite D1; reflexivity|]. split; [intros beyond; unfold md_properties; rewrite D1; reflexivity|]. split.
  { intros c. unfold md_compartment. rewrite D2. f_equal. unfold md_at. cbn [md_pos rbind md_data]. rewrite B. pose proof (zlen_nonneg p). pose proof (zlen_nonneg sc). pose proof (zlen_nonneg t). destruct c; cbn [md_start Nat.add nth poss part].
    - apply copy_range_mid; [reflexivity|lia].
    - rewrite (app_assoc magic p). apply copy_range_mid; [rewrite zl_app; reflexivity|lia].
    - rewrite (app_assoc magic p), (app_assoc (magic ++ p) sc). rewrite <- (app_nil_r t) at 1. apply copy_range_mid; [rewrite !zl_app; reflexivity|lia].
    - unfold copy_range. destruct (Z.ltb_spec 0 (4 + zlen p + zlen sc + zlen t)); [reflexivity|lia]. }
  split.
  { intros beyond. unfold md_properties. rewrite D2. f_equal. unfold md_at. cbn [md_pos rbind md_data nth poss]. rewrite B, <- app_assoc, (skipn_pre magic) by reflexivity. rewrite <- app_assoc.
    destruct (window p ((sc ++ t) ++ beyond) (Z.to_nat (4 + zlen p))) as [z E]; [unfold zlen; lia|]. rewrite E. unfold md_parse_props, p. rewrite <- app_assoc, (pk_props _ _ _ _ _ _ _ _ _ _ _ _ K). reflexivity. }
  split; [reflexivity|]. split; [apply (pk_P _ _ _ _ _ _ _ _ _ _ _ _ K)|apply (pk_Q _ _ _ _ _ _ _ _ _ _ _ _ K)].
Qed.
(** ** put together again *)
Lemma map_first ps b : pack (MMap ps) = Ok b -> exists x q, b = x :: q /\ (128 <= x)%N.
Proof.
  intros H. destruct (map_inv' _ _ H) as (hd & b' & Hh & _ & ->). unfold map_head in Hh. pose proof (zlen_nonneg ps). destruct (zlen ps <? 16).
  - apply Ok_inj in Hh. subst hd. eexists _, _. split; [reflexivity|]. lia.
  - destruct (zlen ps <? 2 ^ 16); [|destruct (zlen ps <? 2 ^ 32); [|discriminate Hh]]; apply Ok_inj in Hh; subst hd; eexists _, _; (split; [reflexivity|lia]).
Qed.
Lemma int_first z n : 0 <= z -> pack (MInt z) = Ok n -> n = [Z.to_N z] \/ exists x q, n = x :: q /\ (128 <= x)%N.
Proof.
  intros Hz H. cbn [pack] in H. unfold pack_int in H. repeat match type of H with (if ?c then _ else _) = _ => destruct c eqn:?E end; try discriminate H; apply Ok_inj in H; subst n; try (left; reflexivity); try (right; eexists _, _; split; [reflexivity|lia]); exfalso; lia.
Qed.
Theorem together_fails bytes n P Q rest m m' p x y z : written bytes n P Q -> (0 < n)%nat -> md_open (bytes ++ rest) = Ok m -> md_compartment CProps m = (m', Ok p) ->
  (2 <= length (x ++ y ++ z))%nat -> md_document (md_of p x y z) = Err IOError.
Proof.
  intros W Hn Ho Hc Hl. destruct (compartments_found_int bytes n P Q rest W Hn) as (m1 & m2 & p' & sc & t & l & tail & js & sch & O1 & _ & _ & _ & C & _ & _ & _ & _ & _ & _ & _ & n1 & b1 & ps & E & Pn & Pm). assert (m1 = m) by congruence. subst m1. destruct (C CProps) as [C1 _]. rewrite Hc in C1. injection C1 as _ ->. cbn [part] in *. clear Hc C.
  destruct (map_first _ _ Pm) as (a & q & -> & Ha). unfold md_document, md_of, java_decode. cbn [md_data]. rewrite E, <- app_assoc. cbn [app].
  assert (G : forall d, (4 <= length d)%nat -> list_eqb N.eqb (firstn 4 d) magic = false -> (let* (header, r) := mu_payload 4 d in if negb (list_eqb N.eqb header magic) then Err IOError else
    let* (props, r1) := jread_props r in let* (sch, r2) := jread_schema r1 in let* (texts, r3) := jread_texts r2 in let* (layers, _) := jread_layers texts sch r3 in
    let sizes := map (fun kl => (fst kl, length (snd (snd kl)))) layers in
    let* ls := mapM (fun kl => let* ns := jresolve sizes (fst (snd kl)) (snd (snd kl)) in Ok (fst kl, (fst (snd kl), ns))) layers in
    Ok (mkJDoc props (map (fun kt => (fst kt, fst (snd kt))) texts) ls)) = Err IOError).
  { intros d L H. unfold mu_payload, take. destruct (Z.ltb_spec (zlen d) 4); [unfold zlen in *; lia|]. cbn [rbind]. change (Z.to_nat 4) with 4%nat. rewrite H. reflexivity. }
  apply G; clear G.
  - apply pack_len in Pn. rewrite app_length. cbn [length]. rewrite app_length. destruct n1; [congruence|]. cbn [length]. lia.
  - destruct (int_first _ _ (zlen_nonneg _) Pn) as [->|(c & r & -> & Hc)]; cbn [app firstn list_eqb magic].
    + rewrite Bool.andb_comm. destruct (N.eqb_spec a 77); [lia|]. reflexivity.
    + destruct (N.eqb_spec c 68); [lia|]. reflexivity.
Qed.
