(** Layers that the Java decoder refuses (MsgpackCodec.java 653-780), after Spec_JCells.v. *)
From Verif Require Import PyBase PyBaseFacts Model_Heap Model_Msgpack Model_JStream Model_Codec Model_JLayer Model_JCodec Spec_JCodec Spec_JEncode Spec_JRefs Spec_JCells Proof_Msgpack Proof_Cut Proof_JStream Proof_JCodec.
Local Open Scope Z_scope.
Local Arguments s : simpl never.

(** the first byte tells the kind *)
Definition tag_fits (g : tag) (o : mobj) : Prop :=
  match g with
  | TgInt _ | TgUint _ | TgSint _ => kind_of o = KInt
  | TgNil => o = MNil
  | TgBool _ => kind_of o = KBool
  | TgFloat | TgFloat32 => kind_of o = KFloat
  | TgStr _ | TgStrN _ => kind_of o = KStr
  | TgBin _ => kind_of o = KBin
  | TgArr n => exists l, o = MArr l /\ length l = Z.to_nat n
  | TgArrN _ => exists l, o = MArr l
  | TgMap _ | TgMapN _ => kind_of o = KMap
  | _ => False
  end.
Lemma list_len u : forall n bs l r, unpack_list u n bs = Ok (l, r) -> length l = n.
Proof.
  induction n as [|n IH]; intros bs l r E; cbn [unpack_list] in E; [injection E as <- <-; reflexivity|]. destruct (u bs) as [[o q]|]; [|discriminate]. cbn [rbind] in E.
  destruct (unpack_list u n q) as [[os q']|] eqn:F; [|discriminate]. cbn [rbind] in E. injection E as <- <-. cbn [length]. f_equal. eapply IH. exact F.
Qed.
Lemma first_tag bs o r : unpack1 bs = Ok (o, r) -> exists b q, bs = b :: q /\ tag_fits (classify b) o.
Proof.
  unfold unpack1. destruct bs as [|b bs]; [discriminate|]. rewrite unpack_S. intros H. exists b, bs. split; [reflexivity|].
  destruct (classify b) as [z|n|n|n| |x|k| |k|k|k|k|k| |n|k| ]; cbn [tag_fits]; try discriminate.
  - injection H as <- <-. reflexivity.
  - destruct (unpack_map _ _ _ _) as [[? ?]|]; [|discriminate]. injection H as <- <-. reflexivity.
  - destruct (unpack_list _ _ _) as [[l ?]|] eqn:E; [|discriminate]. injection H as <- <-. exists l. split; [reflexivity|]. eapply list_len. exact E.
  - unfold unpack_str in H. destruct (take n bs) as [[y ?]|]; [|discriminate]. cbn [rbind] in H. destruct (utf8_decode y); [|discriminate]. injection H as <- <-. reflexivity.
  - injection H as <- <-. reflexivity.
  - injection H as <- <-. reflexivity.
  - destruct (read_uint k bs) as [[? q]|]; [|discriminate]. cbn [rbind] in H. destruct (take z q) as [[? ?]|]; [|discriminate]. injection H as <- <-. reflexivity.
  - destruct (read_uint 8 bs) as [[? ?]|]; [|discriminate]. injection H as <- <-. reflexivity.
  - destruct (read_uint k bs) as [[? ?]|]; [|discriminate]. injection H as <- <-. reflexivity.
  - destruct (read_uint k bs) as [[? ?]|]; [|discriminate]. injection H as <- <-. reflexivity.
  - destruct (read_uint k bs) as [[? q]|]; [|discriminate]. cbn [rbind] in H. unfold unpack_str in H. destruct (take z q) as [[y ?]|]; [|discriminate]. cbn [rbind] in H. destruct (utf8_decode y); [|discriminate]. injection H as <- <-. reflexivity.
  - destruct (read_uint k bs) as [[? q]|]; [|discriminate]. cbn [rbind] in H. destruct (unpack_list _ _ _) as [[l ?]|]; [|discriminate]. injection H as <- <-. exists l. reflexivity.
  - destruct (read_uint k bs) as [[? q]|]; [|discriminate]. cbn [rbind] in H. destruct (unpack_map _ _ _ _) as [[? ?]|]; [|discriminate]. injection H as <- <-. reflexivity.
  - destruct (read_uint 4 bs) as [[? ?]|]; [|discriminate]. injection H as <- <-. reflexivity.
Qed.
Ltac by_tag H := let b := fresh "b" in let q := fresh "q" in let T := fresh "T" in let K := fresh "K" in
  apply first_tag in H; destruct H as (b & q & -> & T); intros K; cbn; destruct (classify b); cbn [tag_fits] in T; try contradiction; try reflexivity;
  exfalso; apply K; try (destruct T as (? & ->)); try (destruct T as (? & -> & _)); try (rewrite T); try (subst); reflexivity.
Lemma not_int bs o r : unpack1 bs = Ok (o, r) -> kind_of o <> KInt -> mu_int bs = Err TypeError.
Proof. intros H. by_tag H. Qed.
Lemma not_long bs o r : unpack1 bs = Ok (o, r) -> kind_of o <> KInt -> mu_long bs = Err TypeError.
Proof. intros H. by_tag H. Qed.
Lemma not_bool bs o r : unpack1 bs = Ok (o, r) -> kind_of o <> KBool -> mu_bool bs = Err TypeError.
Proof. intros H. by_tag H. Qed.
Lemma not_double bs o r : unpack1 bs = Ok (o, r) -> kind_of o <> KFloat -> mu_double bs = Err TypeError.
Proof. intros H. by_tag H. Qed.
Lemma not_arr bs o r : unpack1 bs = Ok (o, r) -> kind_of o <> KArr -> mu_array bs = Err TypeError.
Proof.
  intros H K. apply first_tag in H. destruct H as (b & q & -> & T). cbn. destruct (classify b); cbn [tag_fits] in T; try contradiction; try reflexivity; exfalso; apply K.
  - destruct T as (l & -> & _). reflexivity.
  - destruct T as (l & ->). reflexivity.
Qed.
Lemma not_str bs o r : unpack1 bs = Ok (o, r) -> kind_of o <> KStr -> kind_of o <> KBin -> mu_string bs = Err TypeError.
Proof.
  intros H K L. apply first_tag in H. destruct H as (b & q & -> & T). unfold mu_string, mu_bytes, mu_header. destruct (classify b); cbn [tag_fits] in T; try contradiction; try reflexivity; exfalso; (apply K; exact T) || (apply L; exact T).
Qed.
Lemma not_nil bs o r : unpack1 bs = Ok (o, r) -> o <> MNil -> mu_try_nil bs = Ok (false, bs).
Proof.
  intros H K. apply first_tag in H. destruct H as (b & q & -> & T). cbn. destruct (classify b); cbn [tag_fits] in T; try contradiction; try reflexivity.
Qed.
Lemma not_pair bs l r : unpack1 bs = Ok (MArr l, r) -> zlen l < 2147483648 -> zlen l <> 2 -> exists n q, mu_array bs = Ok (n, q) /\ n <> 2.
Proof.
  intros H L N. pose proof (first_tag _ _ _ H) as (b & q & -> & T). unfold unpack1 in H. rewrite unpack_S in H. cbn [mu_array]. unfold zlen in *.
  destruct (classify b); cbn [tag_fits kind_of] in T; try contradiction; try discriminate.
  - destruct (unpack_list _ _ _) as [[l' ?]|] eqn:E; [|discriminate]. injection H as -> <-. apply list_len in E. exists n, q. split; [reflexivity|]. intros ->. apply N. rewrite E. reflexivity.
  - destruct (read_uint k q) as [[n q']|] eqn:R; [|discriminate]. rewrite (mu_uint_ok _ _ _ R). cbn [rbind] in *. destruct (unpack_list _ _ _) as [[l' ?]|] eqn:E; [|discriminate]. injection H as -> <-. apply list_len in E.
    destruct (Z.ltb_spec 2147483647 n); [exfalso; lia|]. exists n, q'. split; [reflexivity|]. intros ->. apply N. rewrite E. reflexivity.
Qed.
Lemma get_out {A} (l : list A) i : ~ 0 <= i < zlen l -> java_get l i = Err IndexError.
Proof.
  intros H. unfold java_get. destruct (Z.leb_spec 0 i); [|reflexivity]. destruct (nth_error l (Z.to_nat i)) eqn:E; [|reflexivity].
  assert (X : (Z.to_nat i < length l)%nat) by (apply nth_error_Some; congruence). unfold zlen in H. lia.
Qed.
Lemma get_in {A} (l : list A) i : 0 <= i < zlen l -> exists x, java_get l i = Ok x.
Proof.
  intros H. unfold java_get. destruct (Z.leb_spec 0 i); [|lia]. destruct (nth_error l (Z.to_nat i)) eqn:E; [eauto|]. apply nth_error_None in E. unfold zlen in H. lia.
Qed.
Lemma int_in bs z r : unpack1 bs = Ok (MInt z, r) -> int_range z -> mu_int bs = Ok (z, r).
Proof. intros H [A B]. rewrite (mu_int_of _ _ _ H). destruct (Z.ltb_spec z (-2147483648)), (Z.ltb_spec 2147483647 z); try lia. reflexivity. Qed.
Lemma not_nil_after bs o r : unpack1 bs = Ok (o, r) -> o <> MNil -> mu_nil bs = Err TypeError.
Proof.
  intros H N. pose proof (first_tag _ _ _ H) as (b & q & -> & T). cbn [mu_nil]. destruct (classify b); try reflexivity. cbn [tag_fits] in T. exfalso. apply N. destruct o; cbn [kind_of] in T; try discriminate; reflexivity.
Qed.
Lemma nil_of bs r : unpack1 bs = Ok (MNil, r) -> mu_try_nil bs = Ok (true, r).
Proof.
  intros H. pose proof (first_tag _ _ _ H) as (b & q & -> & T). unfold unpack1 in H. rewrite unpack_S in H. cbn [mu_try_nil].
  destruct (classify b); cbn [tag_fits kind_of] in T; try discriminate; try contradiction; try (destruct T as (? & ? & _); discriminate); try (destruct T as (? & ?); discriminate).
  injection H as <-. reflexivity.
Qed.
Lemma int_out bs z r : unpack1 bs = Ok (MInt z, r) -> z < -2147483648 \/ 2147483647 < z -> mu_int bs = Err OverflowError.
Proof. intros H O. rewrite (mu_int_of _ _ _ H). destruct (Z.ltb_spec z (-2147483648)), (Z.ltb_spec 2147483647 z); try lia; reflexivity. Qed.
Lemma any_fuel f bs a r : unpack f bs = Ok (a, r) -> unpack1 bs = Ok (a, r).
Proof.
  intros H. destruct (cut_unpack f (S (length bs)) bs [] a r) as [(r1 & -> & E & _)|(b3 & e & N & X & _)]; [lia|rewrite app_nil_r; exact H| |].
  - rewrite app_nil_r. exact E.
  - exfalso. apply N. destruct b3; [reflexivity|discriminate].
Qed.
Lemma arr_of bs l r : unpack1 bs = Ok (MArr l, r) -> zlen l < 2147483648 -> exists n q f, mu_array bs = Ok (n, q) /\ Z.to_nat n = length l /\ unpack_list (unpack f) (length l) q = Ok (l, r).
Proof.
  intros H L. pose proof (first_tag _ _ _ H) as (b & q & -> & T). unfold unpack1 in H. rewrite unpack_S in H. cbn [mu_array]. unfold zlen in *.
  destruct (classify b); cbn [tag_fits kind_of] in T; try contradiction; try discriminate.
  - destruct (unpack_list _ _ _) as [[l' ?]|] eqn:E; [|discriminate]. injection H as -> <-. pose proof (list_len _ _ _ _ _ E) as N. exists n, q. eexists. split; [reflexivity|]. split; [symmetry; exact N|]. rewrite N. exact E.
  - destruct (read_uint k q) as [[n q']|] eqn:R; [|discriminate]. rewrite (mu_uint_ok _ _ _ R). cbn [rbind] in *. destruct (unpack_list _ _ _) as [[l' ?]|] eqn:E; [|discriminate]. injection H as -> <-. pose proof (list_len _ _ _ _ _ E) as N.
    destruct (Z.ltb_spec 2147483647 n); [exfalso; lia|]. exists n, q'. eexists. split; [reflexivity|]. split; [symmetry; exact N|]. rewrite N. exact E.
Qed.
Lemma ints_bad e f o l2 r (B : forall bs q, unpack1 bs = Ok (o, q) -> mu_int bs = Err e) : forall l1 bs, Forall int_object l1 -> unpack_list (unpack f) (length (l1 ++ o :: l2)) bs = Ok (l1 ++ o :: l2, r) -> jread_ints (length (l1 ++ o :: l2)) bs = Err e.
Proof.
  induction l1 as [|x l1 IH]; intros bs F H; cbn [app length unpack_list jread_ints] in *; destruct (unpack f bs) as [[y q]|] eqn:U; try discriminate; cbn [rbind] in H;
    destruct (unpack_list (unpack f) _ q) as [[ys q']|] eqn:E; try discriminate; cbn [rbind] in H; apply Ok_inj in H; apply any_fuel in U.
  - assert (y = o) by congruence. subst y. rewrite (B _ _ U). reflexivity.
  - inversion F as [|x' l' (z & -> & R) F']; subst. assert (y = MInt z /\ ys = l1 ++ o :: l2 /\ q' = r) as (-> & -> & ->) by (split; [|split]; congruence).
    rewrite (int_in _ _ _ U R). cbn [rbind]. rewrite (IH q F' E). reflexivity.
Qed.
Lemma item_bad texts t key c l1 o l2 r e : t = TNodeRefMany \/ t = TNodeRefSpan /\ zlen (l1 ++ o :: l2) = 2 -> unpack1 c = Ok (MArr (l1 ++ o :: l2), r) -> zlen (l1 ++ o :: l2) < 2147483648 -> Forall int_object l1 ->
  (forall bs q, unpack1 bs = Ok (o, q) -> mu_int bs = Err e) -> jcell_opt texts t key c = Err e.
Proof.
  intros I H L F B. destruct (arr_of _ _ _ H L) as (n & q & f & P & N & U). pose proof (ints_bad e f o l2 r B l1 q F U) as J. unfold jcell_opt. rewrite (not_nil _ _ _ H) by discriminate. cbn [rbind].
  destruct I as [->|[-> Z2]]; cbn [jcell]; rewrite P; cbn [rbind]; [rewrite N, J; reflexivity|]. unfold zlen in Z2. assert (n = 2) as -> by lia. change (negb (2 =? 2)) with false. cbv iota.
  replace (length (l1 ++ o :: l2)) with 2%nat in J by lia. cbn [jread_ints] in J.
  destruct (mu_int q) as [[a r1]|]; cbn [rbind] in *; [|injection J as ->; reflexivity]. destruct (mu_int r1) as [[b r2]|]; cbn [rbind] in *; [discriminate|injection J as ->; reflexivity].
Qed.
Lemma cell_bad texts t key c e : cell_refused texts t key c e -> jcell_opt texts t key c = Err e.
Proof.
  intros [t' key' c' o r U H NN NB|t' key' c' z r I H O|key' c' z r H O|key' c' l r H L N|key' c' r o r' H1 H NN|key' c' a r o r' Ha Ra Hb K|key' c' a r z r' Ha Ra Hb O|t' key' c' l1 o l2 r I H L F NK|t' key' c' l1 z l2 r I H L F O|t' key'|key' c' a r b r' Ha Ra Hb Rb D|key' c' a r b r' x offs Ha Ra Hb Rb D O]; unfold jcell_opt.
  - rewrite (not_nil _ _ _ H NN). cbn [rbind]. assert (K : forall k, begins t' k -> kind_of o <> k) by (intros k B E; apply NB; rewrite E; exact B).
    destruct t'; cbn [jcell]; try contradiction.
    all: try (rewrite (not_int _ _ _ H) by (apply K; constructor; cbn; tauto); reflexivity).
    all: try (rewrite (not_long _ _ _ H) by (apply K; constructor; cbn; tauto); reflexivity).
    all: try (rewrite (not_double _ _ _ H) by (apply K; constructor; cbn; tauto); reflexivity).
    all: try (rewrite (not_bool _ _ _ H) by (apply K; constructor; cbn; tauto); reflexivity).
    all: try (rewrite (not_arr _ _ _ H) by (apply K; constructor; cbn; tauto); reflexivity).
    all: try (rewrite (not_str _ _ _ H) by (apply K; constructor; cbn; tauto); reflexivity).
    unfold mu_value. rewrite H. cbn [rbind]. assert (kind_of o <> KBin) by (apply K; constructor; cbn; tauto). destruct o; try reflexivity. exfalso. auto.
  - rewrite (not_nil _ _ _ H) by discriminate. cbn [rbind].
    assert (E : mu_int c' = Err OverflowError) by (rewrite (mu_int_of _ _ _ H); destruct (Z.ltb_spec z (-2147483648)), (Z.ltb_spec 2147483647 z); try lia; reflexivity).
    destruct I as [<-|[<-|[<-|[]]]]; cbn [jcell]; rewrite E; reflexivity.
  - rewrite (not_nil _ _ _ H) by discriminate. cbn [rbind jcell]. rewrite (mu_long_of _ _ _ H). change (2 ^ 63) with 9223372036854775808. destruct (Z.leb_spec 9223372036854775808 z); [reflexivity|lia].
  - rewrite (not_nil _ _ _ H) by discriminate. cbn [rbind jcell]. destruct (not_pair _ _ _ H L N) as (n & q & -> & Nn). cbn [rbind]. destruct (Z.eqb_spec n 2); [contradiction|]. reflexivity.
  - rewrite (nil_of _ _ H1). cbn [rbind]. rewrite (not_nil_after _ _ _ H NN). reflexivity.
  - rewrite (not_nil _ _ _ Ha) by discriminate. cbn [rbind jcell]. rewrite (int_in _ _ _ Ha Ra). cbn [rbind]. rewrite (not_int _ _ _ Hb K). reflexivity.
  - rewrite (not_nil _ _ _ Ha) by discriminate. cbn [rbind jcell]. rewrite (int_in _ _ _ Ha Ra). cbn [rbind]. rewrite (int_out _ _ _ Hb O). reflexivity.
  - exact (item_bad texts t' key' c' l1 o l2 r _ I H L F (fun bs q X => not_int bs o q X NK)).
  - exact (item_bad texts t' key' c' l1 _ l2 r _ I H L F (fun bs q X => int_out bs z q X O)).
  - reflexivity.
  - rewrite (not_nil _ _ _ Ha) by discriminate. cbn [rbind jcell]. rewrite (int_in _ _ _ Ha Ra). cbn [rbind]. rewrite (int_in _ _ _ Hb Rb). cbn [rbind]. rewrite D. reflexivity.
  - rewrite (not_nil _ _ _ Ha) by discriminate. cbn [rbind jcell]. rewrite (int_in _ _ _ Ha Ra). cbn [rbind]. rewrite (int_in _ _ _ Hb Rb). cbn [rbind]. rewrite D.
    destruct (Z_le_gt_dec 0 a) as [A0|A0]; [destruct (Z_lt_le_dec a (zlen offs)) as [A1|A1]|]; [|rewrite get_out by lia; reflexivity|rewrite get_out by lia; reflexivity].
    destruct (get_in offs a (conj A0 A1)) as [y ->]. cbn [rbind]. rewrite get_out by lia. reflexivity.
Qed.
(** ** columns and layers *)
Lemma cells_bad texts t key e c col : forall k n bs, jcells texts t key k bs = Ok (col, c) -> (k < n)%nat -> jcell_opt texts t key c = Err e -> jcells texts t key n bs = Err e.
Proof.
  intros k. revert col. induction k as [|k IH]; intros col n bs E L B; destruct n as [|n]; try lia; cbn [jcells] in *.
  - injection E as <- <-. rewrite B. reflexivity.
  - destruct (jcell_opt texts t key bs) as [[o r1]|]; [|discriminate]. cbn [rbind] in *. destruct (jcells texts t key k r1) as [[q r2]|] eqn:E2; [|discriminate]. cbn [rbind] in E. injection E as <- <-.
    rewrite (IH q n r1 E2) by (lia || exact B). reflexivity.
Qed.
Lemma put_length f : forall nodes col, length (put_column f nodes col) = length nodes.
Proof. induction nodes as [|n nodes IH]; intros [|[v|] col]; cbn [put_column length]; try reflexivity; rewrite IH; reflexivity. Qed.
Lemma columns_split texts fs2 : forall fs1 nodes bs ns c, jread_columns texts fs1 nodes bs = Ok (ns, c) ->
  length ns = length nodes /\ jread_columns texts (fs1 ++ fs2) nodes bs = jread_columns texts fs2 ns c.
Proof.
  induction fs1 as [|[f t] fs1 IH]; intros nodes bs ns c E; cbn [app jread_columns] in *; [injection E as <- <-; auto|].
  destruct (mu_bool bs) as [[b q]|]; [|discriminate]. cbn [rbind] in *. destruct b; [discriminate|]. destruct (mu_array q) as [[m q1]|]; [|discriminate]. cbn [rbind] in *.
  destruct (jkey t) as [key|]; [|discriminate]. cbn [rbind] in *. destruct (ty_name t) as [|tn|]; try discriminate. destruct (jcells texts tn key (length nodes) q1) as [[col q2]|]; [|discriminate]. cbn [rbind] in *.
  destruct (IH _ _ _ _ E) as [L ->]. rewrite L, put_length. auto.
Qed.
Lemma column_bad texts f t n fs nodes c e : length nodes = n -> column_refused texts t n c e -> jread_columns texts ((f, t) :: fs) nodes c = Err e.
Proof.
  intros L [rest|m hd rest A M O|m hd rest A M O|m hd rest A M O|m hd tn key k rest col c' e' A M Nd E K B]; cbn [jread_columns]; [reflexivity| | | |];
    change (mu_bool (194%N :: hd ++ rest)) with (Ok (false, hd ++ rest)); cbn [rbind]; rewrite (mu_array_pack m hd rest M A); cbn [rbind]; unfold jkey, arg_name.
  - destruct O as [[-> ->]|[-> ->]]; reflexivity.
  - rewrite O. reflexivity.
  - rewrite O. reflexivity.
  - assert (X : jkey t = Ok key /\ ty_name t = JT tn).
    { unfold jkey, arg_name. destruct Nd as [t key Ht Ha|t key Ht Ha|t nm Ht N1 N2]; rewrite Ht; [unfold argument in Ha; rewrite Ha; auto|unfold argument in Ha; rewrite Ha; auto|]. split; [|reflexivity]. destruct nm; try reflexivity; contradiction. }
    destruct X as [X Y]. unfold jkey, arg_name in X. rewrite X. cbn [rbind]. rewrite Y. rewrite L. rewrite (cells_bad texts tn key e' c' col k n rest E K (cell_bad _ _ _ _ _ B)). reflexivity.
Qed.
Lemma layer_bad texts fs bs e : layer_refused texts fs bs e -> jread_layer texts fs bs = Err e.
Proof.
  intros [z n a b rest A Rz B Rn N|z n a b rest fs1 f t fs2 nodes c e' A Rz B Rn N -> E C]; unfold jread_layer; rewrite (mu_int_pack _ _ _ A Rz); cbn [rbind]; rewrite (mu_int_pack _ _ _ B Rn); cbn [rbind].
  - destruct (Z.ltb_spec n 0); [reflexivity|lia].
  - destruct (Z.ltb_spec n 0); [lia|]. destruct (columns_split texts ((f, t) :: fs2) _ _ _ _ _ E) as [L ->]. rewrite repeat_length in L. apply (column_bad _ _ _ _ _ _ _ _ L C).
Qed.
Lemma layers_bad texts k fs ls2 e : forall ls1 bs d r, jread_layers texts ls1 bs = Ok (d, r) -> jread_layer texts fs r = Err e -> jread_layers texts (ls1 ++ (k, fs) :: ls2) bs = Err e.
Proof.
  induction ls1 as [|[k' fs'] ls1 IH]; intros bs d r E B; cbn [app jread_layers] in *; [injection E as <- <-; rewrite B; reflexivity|].
  destruct (jread_layer texts fs' bs) as [[ns q]|]; [|discriminate]. cbn [rbind] in *. destruct (jread_layers texts ls1 q) as [[d' r']|] eqn:F; [|discriminate]. cbn [rbind] in E. injection E as <- <-.
  rewrite (IH _ _ _ F B). reflexivity.
Qed.
Lemma file_bad bs ls1 k fs ls2 texts r d r' e : before_layers bs (ls1 ++ (k, fs) :: ls2) texts r -> jread_layers texts ls1 r = Ok (d, r') -> layer_refused texts fs r' e -> java_decode bs = Err e.
Proof.
  intros (r0 & props & r1 & r2 & E1 & E2 & E3 & E4) E B. unfold java_decode. rewrite E1. cbn [rbind]. change (negb (list_eqb N.eqb magic magic)) with false. cbv iota.
  rewrite E2. cbn [rbind]. rewrite E3. cbn [rbind]. rewrite E4. cbn [rbind]. rewrite (layers_bad _ _ _ _ _ _ _ _ _ E (layer_bad _ _ _ _ B)). reflexivity.
Qed.
