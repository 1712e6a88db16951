(** Cells of one object: what is read and what is refused (MsgpackCodec.java 671-775), after Spec_JCells.v. *)
From Verif Require Import PyBase PyBaseFacts Model_Heap Model_Msgpack Model_JStream Model_Codec Model_JLayer Model_JCodec Spec_JCodec Spec_JEncode Spec_JRefs Spec_JCells Proof_Msgpack Proof_JStream Proof_JCodec Proof_AnyFile Proof_JCells.
Local Open Scope Z_scope.
Local Arguments s : simpl never.

Lemma bool_of bs x r : unpack1 bs = Ok (MBool x, r) -> mu_bool bs = Ok (x, r).
Proof.
  intros H. pose proof (first_tag _ _ _ H) as (b & q & -> & T). unfold unpack1 in H. rewrite unpack_S in H. cbn [mu_bool].
  destruct (classify b); cbn [tag_fits kind_of] in T; try discriminate; try contradiction; try (destruct T as (? & ? & _); discriminate); try (destruct T as (? & ?); discriminate).
  injection H as <- <-. reflexivity.
Qed.
Lemma double_of bs x r : unpack1 bs = Ok (MFloat x, r) -> mu_double bs = Ok (x, r).
Proof.
  intros H. pose proof (first_tag _ _ _ H) as (b & q & -> & T). unfold unpack1 in H. rewrite unpack_S in H. cbn [mu_double].
  destruct (classify b); cbn [tag_fits kind_of] in T; try discriminate; try contradiction; try (destruct T as (? & ? & _); discriminate); try (destruct T as (? & ?); discriminate).
  - destruct (read_uint 8 q) as [[v q']|] eqn:R; [|discriminate]. rewrite (mu_uint_ok _ _ _ R). cbn [rbind] in *. injection H as <- <-. reflexivity.
  - destruct (read_uint 4 q) as [[v q']|] eqn:R; [|discriminate]. rewrite (mu_uint_ok _ _ _ R). cbn [rbind] in *. injection H as <- <-. reflexivity.
Qed.
Lemma take_fits k bs x : take k bs = Ok x -> k <= zlen bs.
Proof. unfold take. destruct (Z.ltb_spec (zlen bs) k); [discriminate|auto]. Qed.
Lemma rest_len k bs x r : take k bs = Ok (x, r) -> zlen r <= zlen bs.
Proof. unfold take. destruct (zlen bs <? k); [discriminate|]. intros H. injection H as <- <-. unfold zlen. rewrite skipn_length. lia. Qed.
Lemma string_of bs x r : unpack1 bs = Ok (MStr x, r) -> zlen bs < 2147483648 -> mu_string bs = Ok (x, r).
Proof.
  intros H L. pose proof (first_tag _ _ _ H) as (b & q & -> & T). unfold unpack1 in H. rewrite unpack_S in H. unfold mu_string, mu_bytes, mu_header, mu_payload.
  destruct (classify b); cbn [tag_fits kind_of] in T; try discriminate; try contradiction; try (destruct T as (? & ? & _); discriminate); try (destruct T as (? & ?); discriminate).
  - cbn [rbind]. unfold unpack_str in H. destruct (take n q) as [[y q']|]; [|discriminate]. cbn [rbind] in *. destruct (utf8_decode y) as [z|]; [|discriminate]. cbn [rbind] in *. injection H as <- <-. reflexivity.
  - destruct (read_uint k q) as [[v q']|] eqn:R; [|discriminate]. rewrite (mu_uint_ok _ _ _ R). cbn [rbind] in *. unfold unpack_str in H. destruct (take v q') as [[y q'']|] eqn:K; [|discriminate].
    assert (V : v <= 2147483647). { apply take_fits in K. unfold read_uint in R. destruct (take k q) as [[y' q3]|] eqn:K'; [|discriminate]. cbn [rbind] in R. injection R as _ <-. apply rest_len in K'. unfold zlen in *. cbn [length] in L. lia. }
    destruct (Z.ltb_spec 2147483647 v); [lia|]. cbn [rbind]. rewrite K. cbn [rbind] in *. destruct (utf8_decode y) as [z|]; [|discriminate]. cbn [rbind] in *. injection H as <- <-. reflexivity.
Qed.
Lemma ulist_fits f : forall n bs l r, unpack_list (unpack f) n bs = Ok (l, r) -> (n <= length bs)%nat.
Proof.
  induction n as [|n IH]; intros bs l r H; [lia|]. cbn [unpack_list] in H. destruct (unpack f bs) as [[o q]|] eqn:U; [|discriminate]. cbn [rbind] in H.
  destruct (unpack_list (unpack f) n q) as [[os q']|] eqn:E; [|discriminate]. apply IH in E. apply unpack_shrinks in U. lia.
Qed.
Lemma arr_short bs l r : unpack1 bs = Ok (MArr l, r) -> zlen l <= zlen bs.
Proof.
  intros H. pose proof (first_tag _ _ _ H) as (b & q & -> & T). unfold unpack1 in H. rewrite unpack_S in H. unfold zlen in *.
  destruct (classify b); cbn [tag_fits kind_of] in T; try contradiction; try discriminate.
  - destruct (unpack_list _ _ _) as [[l' ?]|] eqn:E; [|discriminate]. injection H as -> <-. pose proof (list_len _ _ _ _ _ E) as N. apply ulist_fits in E. cbn [length]. lia.
  - destruct (read_uint k q) as [[n q']|] eqn:R; [|discriminate]. cbn [rbind] in *. destruct (unpack_list _ _ _) as [[l' ?]|] eqn:E; [|discriminate]. injection H as -> <-. pose proof (list_len _ _ _ _ _ E) as N. apply ulist_fits in E.
    unfold read_uint in R. destruct (take k q) as [[y' q3]|] eqn:K'; [|discriminate]. cbn [rbind] in R. injection R as _ <-. apply rest_len in K'. unfold zlen in K'. cbn [length]. lia.
Qed.
Lemma ints_good f r : forall zs bs, Forall int_range zs -> unpack_list (unpack f) (length zs) bs = Ok (map MInt zs, r) -> jread_ints (length zs) bs = Ok (zs, r).
Proof.
  induction zs as [|z zs IH]; intros bs F H; cbn [map length unpack_list jread_ints] in *; [apply Ok_inj in H; injection H as <-; reflexivity|].
  destruct (unpack f bs) as [[y q]|] eqn:U; [|discriminate]. cbn [rbind] in H. destruct (unpack_list (unpack f) _ q) as [[ys q']|] eqn:E; [|discriminate]. cbn [rbind] in H. apply Ok_inj in H. apply any_fuel in U.
  inversion F as [|z' zs' R F']; subst. assert (y = MInt z /\ ys = map MInt zs /\ q' = r) as (-> & -> & ->) by (split; [|split]; congruence).
  rewrite (int_in _ _ _ U R). cbn [rbind]. rewrite (IH q F' E). reflexivity.
Qed.
Lemma int_sum a b e k : int_range e -> e = a + b + k * 4294967296 -> int_add b a = e.
Proof.
  unfold int_range, int_add, to_signed. intros R E. change (2 ^ 32) with 4294967296. change (2 ^ (8 * 4 - 1)) with 2147483648. change (2 ^ (8 * 4)) with 4294967296.
  assert (X : (b + a) mod 4294967296 = if e <? 0 then e + 4294967296 else e).
  { symmetry. destruct (Z.ltb_spec e 0); [apply Z.mod_unique with (q := - k - 1)|apply Z.mod_unique with (q := - k)]; lia. }
  rewrite X. destruct (Z.ltb_spec e 0); [destruct (Z.ltb_spec (e + 4294967296) 2147483648); lia|destruct (Z.ltb_spec e 2147483648); lia].
Qed.
Lemma sum_int a b : exists e k, int_range e /\ e = a + b + k * 4294967296.
Proof.
  exists ((a + b + 2147483648) mod 4294967296 - 2147483648), (- ((a + b + 2147483648) / 4294967296)). pose proof (Z.mod_pos_bound (a + b + 2147483648) 4294967296). pose proof (Z.div_mod (a + b + 2147483648) 4294967296). unfold int_range. lia.
Qed.
(** the entries of an array: all are ints, or there is a first that is not *)
Lemma items_split l : (exists zs, l = map MInt zs /\ Forall int_range zs) \/
  (exists l1 o l2, l = l1 ++ o :: l2 /\ Forall int_object l1 /\ kind_of o <> KInt) \/ (exists l1 z l2, l = l1 ++ MInt z :: l2 /\ Forall int_object l1 /\ (z < -2147483648 \/ 2147483647 < z)).
Proof.
  induction l as [|o l IH]; [left; exists []; split; [reflexivity|constructor]|].
  assert (K : kind_of o <> KInt \/ exists z, o = MInt z) by (destruct o; eauto; left; discriminate). destruct K as [K|[z ->]]; [right; left; exists [], o, l; repeat split; [constructor|exact K]|].
  assert (R : int_range z \/ (z < -2147483648 \/ 2147483647 < z)) by (unfold int_range; lia). destruct R as [R|R]; [|right; right; exists [], z, l; repeat split; [constructor|exact R]].
  assert (I : int_object (MInt z)) by (exists z; auto). destruct IH as [(zs & -> & F)|[(l1 & o & l2 & -> & F & N)|(l1 & y & l2 & -> & F & N)]].
  - left. exists (z :: zs). split; [reflexivity|constructor; assumption].
  - right. left. exists (MInt z :: l1), o, l2. repeat split; [constructor; assumption|exact N].
  - right. right. exists (MInt z :: l1), y, l2. repeat split; [constructor; assumption|exact N].
Qed.
Lemma cell_good texts t key c o r v : one_object t -> unpack1 c = Ok (o, r) -> zlen c < 2147483648 -> cell_value t key o v -> jcell_opt texts t key c = Ok (v, r).
Proof.
  intros O H L V. unfold jcell_opt. destruct V as [t key|t key z I R|key z R|key b|key b|key x|key x|key zs F|key a b e k Ra Rb Re Ee]; try (rewrite (not_nil _ _ _ H) by discriminate; cbn [rbind]).
  - rewrite (nil_of _ _ H). cbn [rbind]. unfold one_object in O. cbn [In] in O. destruct t; try reflexivity. exfalso. intuition discriminate.
  - destruct I as [<-|[<-|[]]]; cbn [jcell]; rewrite (int_in _ _ _ H R); reflexivity.
  - cbn [jcell]. rewrite (mu_long_of _ _ _ H). change (2 ^ 63) with 9223372036854775808. destruct (Z.leb_spec 9223372036854775808 z); [lia|]. reflexivity.
  - cbn [jcell]. rewrite (double_of _ _ _ H). reflexivity.
  - cbn [jcell]. rewrite (bool_of _ _ _ H). reflexivity.
  - cbn [jcell]. rewrite (string_of _ _ _ H L). reflexivity.
  - cbn [jcell]. unfold mu_value. rewrite H. reflexivity.
  - cbn [jcell]. destruct (arr_of _ _ _ H) as (n & q & f & P & N & U); [pose proof (arr_short _ _ _ H); lia|]. rewrite P. cbn [rbind]. rewrite N. rewrite map_length in *. rewrite (ints_good f r zs q F U). reflexivity.
  - cbn [jcell]. destruct (arr_of _ _ _ H) as (n & q & f & P & N & U); [pose proof (arr_short _ _ _ H); lia|]. rewrite P. cbn [rbind]. cbn [length] in N. assert (n = 2) as -> by lia. change (negb (2 =? 2)) with false. cbv iota.
    assert (J : jread_ints 2 q = Ok ([a; b], r)) by (apply (ints_good f r [a; b] q); [constructor; [exact Ra|constructor; [exact Rb|constructor]]|exact U]). cbn [jread_ints] in J.
    destruct (mu_int q) as [[a' r1]|]; [|discriminate]. cbn [rbind] in *. destruct (mu_int r1) as [[b' r2]|]; [|discriminate]. cbn [rbind] in *. injection J as -> -> ->. rewrite (int_sum a b e k Re Ee). reflexivity.
Qed.
Lemma cell_split texts t key c o r : one_object t -> unpack1 c = Ok (o, r) -> zlen c < 2147483648 -> (t = TString -> kind_of o <> KBin) -> (exists v, cell_value t key o v) \/ (exists e, cell_refused texts t key c e).
Proof.
  intros O H L NB. assert (U : t <> TUnknown) by (intros ->; unfold one_object in O; cbn [In] in O; intuition discriminate).
  assert (D : o = MNil \/ o <> MNil) by (destruct o; auto; right; discriminate). destruct D as [->|NN]; [left; eexists; constructor|].
  assert (X : begins t (kind_of o) \/ ~ begins t (kind_of o)).
  { unfold one_object in O. cbn [In] in O. destruct t; try (exfalso; intuition discriminate); destruct o; cbn [kind_of];
      try (left; constructor; cbn [In]; tauto); right; intros B; inversion B; subst; cbn [In] in *; intuition discriminate. }
  destruct X as [B|B]; [|right; exists TypeError; exact (cl_kind texts t key c o r U H NN B)].
  inversion B as [t' I E K|E K|E K|E K|t' I E K|t' I E K]; subst; destruct o as [|bo|z|fl|st|bi|ar|ma]; try discriminate.
  - destruct (Z_lt_le_dec z (-2147483648)) as [Z1|Z1]; [|destruct (Z_lt_le_dec 2147483647 z) as [Z2|Z2]].
    + destruct I as [<-|[<-|[<-|[<-|[]]]]].
      * right. eexists. apply cl_int with (z := z) (r := r); [cbn; tauto|exact H|lia].
      * left. eexists. apply cv_long. lia.
      * right. eexists. apply cl_int with (z := z) (r := r); [cbn; tauto|exact H|lia].
      * right. eexists. apply cl_int with (z := z) (r := r); [cbn; tauto|exact H|lia].
    + destruct I as [<-|[<-|[<-|[<-|[]]]]].
      * right. eexists. apply cl_int with (z := z) (r := r); [cbn; tauto|exact H|lia].
      * destruct (Z_lt_le_dec z 9223372036854775808); [left; eexists; apply cv_long; lia|right; eexists; eapply cl_long; [exact H|lia]].
      * right. eexists. apply cl_int with (z := z) (r := r); [cbn; tauto|exact H|lia].
      * right. eexists. apply cl_int with (z := z) (r := r); [cbn; tauto|exact H|lia].
    + destruct I as [<-|[<-|[<-|[<-|[]]]]].
      * left. eexists. apply cv_int; [cbn; tauto|split; lia].
      * left. eexists. apply cv_long. lia.
      * left. eexists. apply cv_int; [cbn; tauto|split; lia].
      * exfalso. unfold one_object in O. cbn [In] in O. intuition discriminate.
  - left. eexists. apply cv_double.
  - left. eexists. apply cv_bool.
  - left. eexists. apply cv_str.
  - destruct I as [<-|[<-|[]]]; [exfalso; apply NB; reflexivity|]. left. eexists. apply cv_ext.
  - pose proof (arr_short _ _ _ H) as S. destruct I as [<-|[<-|[<-|[]]]]; [exfalso; unfold one_object in O; cbn [In] in O; intuition discriminate| |].
    + destruct (items_split ar) as [(zs & -> & F)|[(l1 & x & l2 & -> & F & N)|(l1 & y & l2 & -> & F & N)]].
      * left. eexists. apply cv_many. exact F.
      * right. eexists. eapply cl_item; [left; reflexivity|exact H|lia|exact F|exact N].
      * right. eexists. eapply cl_item_int; [left; reflexivity|exact H|lia|exact F|exact N].
    + destruct (Z.eq_dec (zlen ar) 2) as [Z2|Z2]; [|right; eexists; eapply cl_pair; [exact H|lia|exact Z2]]. destruct (items_split ar) as [(zs & -> & F)|[(l1 & x & l2 & -> & F & N)|(l1 & y & l2 & -> & F & N)]].
      * unfold zlen in Z2. rewrite map_length in Z2. destruct zs as [|a [|b [|? zs]]]; cbn [length] in Z2; try lia. destruct (sum_int a b) as (e & k & Re & Ee). inversion F as [|? ? Ra F']; subst. inversion F' as [|? ? Rb _]; subst.
        left. eexists. apply (cv_range key a b (a + b + k * 4294967296) k); auto.
      * right. eexists. eapply cl_item; [right; split; [reflexivity|exact Z2]|exact H|lia|exact F|exact N].
      * right. eexists. eapply cl_item_int; [right; split; [reflexivity|exact Z2]|exact H|lia|exact F|exact N].
Qed.
Lemma cell_iff texts t key c o r : one_object t -> unpack1 c = Ok (o, r) -> zlen c < 2147483648 -> (t = TString -> kind_of o <> KBin) ->
  (forall v r', jcell_opt texts t key c = Ok (v, r') <-> cell_value t key o v /\ r' = r) /\ (forall e, jcell_opt texts t key c = Err e <-> cell_refused texts t key c e).
Proof.
  intros O H L NB. split.
  - intros v r'. split; [|intros [V ->]; exact (cell_good texts t key c o r v O H L V)]. intros E. destruct (cell_split texts t key c o r O H L NB) as [[w W]|[e R]].
    + rewrite (cell_good texts t key c o r w O H L W) in E. injection E as <- <-. auto.
    + rewrite (cell_bad _ _ _ _ _ R) in E. discriminate.
  - intros e. split; [|apply cell_bad]. intros E. destruct (cell_split texts t key c o r O H L NB) as [[w W]|[e' R]].
    + rewrite (cell_good texts t key c o r w O H L W) in E. discriminate.
    + rewrite (cell_bad _ _ _ _ _ R) in E. injection E as <-. exact R.
Qed.
(** ** columns *)
Lemma column_read texts t key : one_object t -> forall os bs c, objects_then os bs c -> zlen bs < 2147483648 -> forall col, Forall2 (cell_value t key) os col -> jcells texts t key (length os) bs = Ok (col, c).
Proof.
  intros O os bs c T. induction T as [bs|o os bs r c U T IH]; intros L col F; inversion F as [|o' v os' col' V F' E1 E2]; subst; cbn [length jcells]; [reflexivity|].
  rewrite (cell_good texts t key bs o r v O U L V). cbn [rbind]. pose proof (shorter _ _ _ U) as S. rewrite (IH ltac:(unfold zlen in *; lia) col' F'). reflexivity.
Qed.
Lemma column_refuse texts t key : one_object t -> forall os bs e, zlen bs < 2147483648 -> first_refused texts t key os bs e -> jcells texts t key (length os) bs = Err e.
Proof.
  intros O os bs e L (os1 & o & os2 & c & -> & T & F & R). assert (X : exists col, Forall2 (cell_value t key) os1 col).
  { clear -F. induction F as [|o' os1 [v V] F [col IH]]; [exists []; constructor|exists (v :: col); constructor; auto]. }
  destruct X as [col F2]. apply (cells_bad texts t key e c col (length os1)); [exact (column_read texts t key O os1 bs c T L col F2)|rewrite app_length; cbn [length]; lia|exact (cell_bad _ _ _ _ _ R)].
Qed.
Lemma column_split texts t key : one_object t -> forall os bs c, objects_then os bs c -> zlen bs < 2147483648 -> (t = TString -> Forall (fun o => kind_of o <> KBin) os) ->
  (exists col, Forall2 (cell_value t key) os col) \/ exists e, first_refused texts t key os bs e.
Proof.
  intros O os bs c T. induction T as [bs|o os bs r c U T IH]; intros L NB; [left; exists []; constructor|].
  destruct (cell_split texts t key bs o r O U L) as [[v V]|[e R]].
  - intros X. pose proof (NB X) as Y. inversion Y. assumption.
  - pose proof (shorter _ _ _ U) as S. destruct IH as [[col F]|[e (os1 & o' & os2 & c' & -> & T' & F & R)]]; [unfold zlen in *; lia|intros X; pose proof (NB X) as Y; inversion Y; assumption| |].
    + left. exists (v :: col). constructor; assumption.
    + right. exists e, (o :: os1), o', os2, c'. split; [reflexivity|]. split; [eapply ob_more; eassumption|]. split; [|exact R]. constructor; [exists v; exact V|exact F].
  - right. exists e, [], o, os, bs. split; [reflexivity|]. split; [constructor|]. split; [constructor|exact R].
Qed.
Lemma column_iff texts t key os bs c : one_object t -> objects_then os bs c -> zlen bs < 2147483648 -> (t = TString -> Forall (fun o => kind_of o <> KBin) os) ->
  (forall col r, jcells texts t key (length os) bs = Ok (col, r) <-> Forall2 (cell_value t key) os col /\ r = c) /\
  (forall e, jcells texts t key (length os) bs = Err e <-> first_refused texts t key os bs e).
Proof.
  intros O T L NB. split.
  - intros col r. split; [|intros [F ->]; exact (column_read texts t key O os bs c T L col F)]. intros E. destruct (column_split texts t key O os bs c T L NB) as [[w W]|[e R]].
    + rewrite (column_read texts t key O os bs c T L w W) in E. injection E as <- <-. auto.
    + rewrite (column_refuse texts t key O os bs e L R) in E. discriminate.
  - intros e. split; [|intros R; exact (column_refuse texts t key O os bs e L R)]. intros E. destruct (column_split texts t key O os bs c T L NB) as [[w W]|[e' R]].
    + rewrite (column_read texts t key O os bs c T L w W) in E. discriminate.
    + rewrite (column_refuse texts t key O os bs e' L R) in E. injection E as <-. exact R.
Qed.
(** ** spans *)
Lemma nil_after bs r : unpack1 bs = Ok (MNil, r) -> mu_nil bs = Ok r.
Proof.
  intros H. pose proof (nil_of _ _ H) as E. destruct bs as [|b q]; [discriminate|]. cbn in *. destruct (classify b); try discriminate. injection E as <-. reflexivity.
Qed.
Lemma span_good texts key c o1 r1 o2 r2 v : unpack1 c = Ok (o1, r1) -> unpack1 r1 = Ok (o2, r2) -> span_value texts key o1 o2 v -> jcell_opt texts TSpan key c = Ok (v, r2).
Proof.
  intros H1 H2 V. unfold jcell_opt. destruct V as [|a b x offs i j Ra Rb D A B I J].
  - rewrite (nil_of _ _ H1). cbn [rbind]. rewrite (nil_after _ _ H2). reflexivity.
  - rewrite (not_nil _ _ _ H1) by discriminate. cbn [rbind jcell]. rewrite (int_in _ _ _ H1 Ra). cbn [rbind]. rewrite (int_in _ _ _ H2 Rb). cbn [rbind]. rewrite D. unfold java_get. destruct (Z.leb_spec 0 a); [|lia]. destruct (Z.leb_spec 0 b); [|lia]. rewrite I, J. reflexivity.
Qed.
Lemma int_kind o : kind_of o = KInt -> exists z, o = MInt z.
Proof. destruct o; try discriminate. eauto. Qed.
Lemma kind_int o : {kind_of o = KInt} + {kind_of o <> KInt}.
Proof. destruct o; (left; reflexivity) || (right; discriminate). Qed.
Lemma range_dec z : int_range z \/ (z < -2147483648 \/ 2147483647 < z).
Proof. unfold int_range. lia. Qed.
Lemma span_split texts key c o1 r1 o2 r2 : unpack1 c = Ok (o1, r1) -> unpack1 r1 = Ok (o2, r2) -> (exists v, span_value texts key o1 o2 v) \/ exists e, cell_refused texts TSpan key c e.
Proof.
  intros H1 H2. assert (D : o1 = MNil \/ o1 <> MNil) by (destruct o1; auto; right; discriminate). destruct D as [->|N1].
  { assert (D : o2 = MNil \/ o2 <> MNil) by (destruct o2; auto; right; discriminate). destruct D as [->|N2]; [left; eexists; constructor|right; eexists; eapply cl_nil; eassumption]. }
  destruct (kind_int o1) as [K|K]; [|right; eexists; eapply cl_kind; [discriminate|exact H1|exact N1|]; intros B; inversion B; subst; cbn [In] in *; try (intuition discriminate); congruence].
  apply int_kind in K. destruct K as [a ->]. destruct (range_dec a) as [Ra|Oa]; [|right; eexists; eapply cl_int; [cbn; tauto|exact H1|exact Oa]].
  destruct (kind_int o2) as [K|K]; [|right; eexists; eapply cl_stop; eassumption]. apply int_kind in K. destruct K as [b ->]. destruct (range_dec b) as [Rb|Ob]; [|right; eexists; eapply cl_stop_int; eassumption].
  destruct (dget texts key) as [[x offs]|] eqn:D; [|right; eexists; eapply cl_text; eassumption].
  assert (X : (0 <= a < zlen offs /\ 0 <= b < zlen offs) \/ ~ (0 <= a < zlen offs /\ 0 <= b < zlen offs)) by lia.
  destruct X as [[A B]|X]; [|right; eexists; eapply cl_part; eassumption]. left.
  destruct (nth_error offs (Z.to_nat a)) as [i|] eqn:I; [|apply nth_error_None in I; unfold zlen in A; lia]. destruct (nth_error offs (Z.to_nat b)) as [j|] eqn:J; [|apply nth_error_None in J; unfold zlen in B; lia].
  eexists. eapply sv_span; try eassumption; lia.
Qed.
Lemma span_iff texts key c o1 r1 o2 r2 : unpack1 c = Ok (o1, r1) -> unpack1 r1 = Ok (o2, r2) ->
  (forall v r', jcell_opt texts TSpan key c = Ok (v, r') <-> span_value texts key o1 o2 v /\ r' = r2) /\ (forall e, jcell_opt texts TSpan key c = Err e <-> cell_refused texts TSpan key c e).
Proof.
  intros H1 H2. split.
  - intros v r'. split; [|intros [V ->]; exact (span_good texts key c o1 r1 o2 r2 v H1 H2 V)]. intros E. destruct (span_split texts key c o1 r1 o2 r2 H1 H2) as [[w W]|[e R]].
    + rewrite (span_good texts key c o1 r1 o2 r2 w H1 H2 W) in E. injection E as <- <-. auto.
    + rewrite (cell_bad _ _ _ _ _ R) in E. discriminate.
  - intros e. split; [|apply cell_bad]. intros E. destruct (span_split texts key c o1 r1 o2 r2 H1 H2) as [[w W]|[e' R]].
    + rewrite (span_good texts key c o1 r1 o2 r2 w H1 H2 W) in E. discriminate.
    + rewrite (cell_bad _ _ _ _ _ R) in E. injection E as <-. exact R.
Qed.
