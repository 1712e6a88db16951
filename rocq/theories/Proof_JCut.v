(** Cut and extended input in the Java port. *)
From Verif Require Import PyBase PyBaseFacts Model_Text Model_Heap Model_Layer Model_Types Model_Msgpack Model_Codec Model_JUnits Model_JLayer Model_JStream Model_JCodec Model_JEncode
  Spec_Msgpack Proof_Msgpack Spec_Cut Proof_Cut Spec_JCodec Spec_JEncode Proof_JEncode3.
Local Open Scope Z_scope.

(** A reader that reads a certain front of its bytes, and wants nothing else: with more after it the result is the same, with less of it the reader
    raises for want of bytes. *)
Definition steady {A} (F : list N -> res (A * list N)) : Prop :=
  (forall b1 b2 a r, F (b1 ++ b2) = Ok (a, r) ->
    (exists r1 p, r = r1 ++ b2 /\ F b1 = Ok (a, r1) /\ b1 = p ++ r1) \/ (exists b3, b3 <> [] /\ b2 = b3 ++ r /\ F b1 = Err OutOfData)) /\
  (forall b1 b2 a r, F b1 = Ok (a, r) -> F (b1 ++ b2) = Ok (a, r ++ b2)).
Lemma steady_eats {A} (F : list N -> res (A * list N)) bs a r : steady F -> F bs = Ok (a, r) -> exists p, bs = p ++ r.
Proof.
  intros [C _] H. destruct (C [] bs a r H) as [(r1 & p & -> & _ & Ep)|(b3 & _ & -> & _)]; [|exists b3; reflexivity].
  destruct p; [|discriminate]. destruct r1; [|discriminate]. exists []. reflexivity.
Qed.
Lemma steady_ret {A} (a : A) : steady (fun bs => Ok (a, bs)).
Proof.
  split.
  - intros b1 b2 x r H. apply Ok_inj in H. injection H as <- <-. left. exists b1, []. repeat split.
  - intros b1 b2 x r H. apply Ok_inj in H. injection H as <- <-. reflexivity.
Qed.
Lemma steady_err {A} e : steady (fun _ => @Err (A * list N) e).
Proof. split; intros; discriminate. Qed.
Lemma steady_bind {A B} (F : list N -> res (A * list N)) (K : A -> list N -> res (B * list N)) : steady F -> (forall a, steady (K a)) ->
  steady (fun bs => let* (a, r) := F bs in K a r).
Proof.
  intros SF SK. split.
  - intros b1 b2 c r H. destruct (F (b1 ++ b2)) as [[a r0]|] eqn:E; [|discriminate]. cbn [rbind] in H.
    destruct (proj1 SF b1 b2 a r0 E) as [(r1 & p & -> & E' & Ep)|(b3 & N3 & -> & E')]; rewrite E'; cbn [rbind].
    + destruct (proj1 (SK a) r1 b2 c r H) as [(r2 & q & -> & E2 & Eq)|(b3 & N3 & -> & E2)]; [left|right; exists b3; auto].
      exists r2, (p ++ q). split; [reflexivity|]. split; [exact E2|]. rewrite <- app_assoc, <- Eq. exact Ep.
    + right. destruct (steady_eats _ _ _ _ (SK a) H) as [q ->]. exists (b3 ++ q). rewrite app_assoc. repeat split. destruct b3; [congruence|discriminate].
  - intros b1 b2 c r H. destruct (F b1) as [[a r0]|] eqn:E; [|discriminate]. cbn [rbind] in H. rewrite (proj2 SF _ b2 _ _ E). cbn [rbind]. apply (proj2 (SK a)). exact H.
Qed.
Lemma steady_pure {A B} (x : res A) (K : A -> list N -> res (B * list N)) : (forall a, steady (K a)) -> steady (fun bs => let* a := x in K a bs).
Proof. intros SK. destruct x as [a|e]; cbn [rbind]; [apply SK|apply steady_err]. Qed.
Lemma steady_if {A} (c : bool) (F G : list N -> res (A * list N)) : steady F -> steady G -> steady (fun bs => if c then F bs else G bs).
Proof. destruct c; auto. Qed.
(** one byte decides *)
Lemma steady_head {A} (K : tag -> list N -> res (A * list N)) : (forall t, steady (K t)) ->
  steady (fun bs => match bs with [] => Err OutOfData | b :: r => K (classify b) r end).
Proof.
  intros SK. split.
  - intros [|b b1] b2 a r H.
    + right. cbn [app] in H. destruct b2 as [|b b2]; [discriminate|]. destruct (steady_eats _ _ _ _ (SK (classify b)) H) as [p ->]. exists (b :: p). repeat split. discriminate.
    + cbn [app] in H. destruct (proj1 (SK (classify b)) b1 b2 a r H) as [(r1 & p & -> & E & Ep)|(b3 & N3 & -> & E)]; [left|right; exists b3; auto].
      exists r1, (b :: p). split; [reflexivity|]. split; [exact E|]. cbn [app]. rewrite <- Ep. reflexivity.
  - intros [|b b1] b2 a r H; [discriminate|]. cbn [app]. apply (proj2 (SK _)). exact H.
Qed.
Lemma steady_eq {A} (F G : list N -> res (A * list N)) : (forall bs, G bs = F bs) -> steady F -> steady G.
Proof.
  intros E [C X]. split.
  - intros b1 b2 a r H. rewrite E in H. rewrite E. apply C. exact H.
  - intros b1 b2 a r H. rewrite E in *. apply X. exact H.
Qed.

Lemma st_payload n : steady (mu_payload n).
Proof.
  split.
  - intros b1 b2 a r H. unfold mu_payload in *. destruct (take n (b1 ++ b2)) as [[x y]|] eqn:E; [|discriminate]. apply Ok_inj in H. injection H as <- <-.
    destruct (cut_take (S (length b1)) n b1 b2 x y ltac:(lia) E) as [(r1 & -> & E' & p & Ep)|(b3 & e & N3 & -> & _ & E')]; rewrite E'; [left|right].
    + exists r1, p. repeat split. exact Ep.
    + exists b3. repeat split. exact N3.
  - intros b1 b2 a r H. unfold mu_payload in *. destruct (take n b1) as [[x y]|] eqn:E; [|discriminate]. apply Ok_inj in H. injection H as <- <-. rewrite (ext_take n b1 b2 x y E). reflexivity.
Qed.
Lemma st_uint k : steady (mu_uint k).
Proof.
  split.
  - intros b1 b2 a r H. unfold mu_uint in *. destruct (read_uint k (b1 ++ b2)) as [[x y]|] eqn:E; [|discriminate]. apply Ok_inj in H. injection H as <- <-.
    destruct (cut_uint (S (length b1)) k b1 b2 x y ltac:(lia) E) as [(r1 & -> & E' & p & Ep)|(b3 & e & N3 & -> & _ & E')]; rewrite E'; [left|right].
    + exists r1, p. repeat split. exact Ep.
    + exists b3. repeat split. exact N3.
  - intros b1 b2 a r H. unfold mu_uint in *. destruct (read_uint k b1) as [[x y]|] eqn:E; [|discriminate]. apply Ok_inj in H. injection H as <- <-. rewrite (ext_uint k b1 b2 x y E). reflexivity.
Qed.
Lemma st_value : steady mu_value.
Proof.
  split.
  - intros b1 b2 a r H. unfold mu_value in *. destruct (unpack1 (b1 ++ b2)) as [[x y]|e] eqn:E; [|destruct e; discriminate]. apply Ok_inj in H. injection H as <- <-.
    destruct (cut_unpack1 (S (length b1)) b1 b2 x y ltac:(lia) E) as [(r1 & -> & E' & p & Ep)|(b3 & e & N3 & -> & W & E')]; rewrite E'; [left|right].
    + exists r1, p. repeat split. exact Ep.
    + exists b3. repeat split; [exact N3|]. destruct W as [-> | ->]; reflexivity.
  - intros b1 b2 a r H. unfold mu_value in *. destruct (unpack1 b1) as [[x y]|e] eqn:E; [|destruct e; discriminate]. apply Ok_inj in H. injection H as <- <-.
    rewrite (ext_unpack1 b1 b2 x y E). reflexivity.
Qed.
Definition number_tag (t : tag) (r : list N) : res (Z * list N) :=
  match t with
  | TgInt z => Ok (z, r)
  | TgUint k => mu_uint k r
  | TgSint k => let* (v, r') := mu_uint k r in Ok (to_signed k v, r')
  | _ => Err TypeError
  end.
Lemma st_number t : steady (number_tag t).
Proof.
  destruct t; try apply steady_err; [apply steady_ret|apply st_uint|]. unfold number_tag. apply steady_bind; [apply st_uint|]. intros v. apply steady_ret.
Qed.
Lemma st_int : steady mu_int.
Proof.
  apply (steady_head (fun t r => let* (v, r1) := number_tag t r in if (v <? -2147483648) || (2147483647 <? v) then Err OverflowError else Ok (v, r1))). intros t.
  apply (steady_bind (number_tag t)); [apply st_number|]. intros v. apply steady_if; [apply steady_err|apply steady_ret].
Qed.
Lemma st_long : steady mu_long.
Proof.
  apply (steady_head (fun t r => let* (v, r1) := number_tag t r in if 2 ^ 63 <=? v then Err OverflowError else Ok (v, r1))). intros t.
  apply (steady_bind (number_tag t)); [apply st_number|]. intros v. apply steady_if; [apply steady_err|apply steady_ret].
Qed.
Lemma st_double : steady mu_double.
Proof.
  apply (steady_head (fun t r => match t with
      | TgFloat => let* (v, r') := mu_uint 8 r in Ok (Z.to_N v, r')
      | TgFloat32 => let* (v, r') := mu_uint 4 r in Ok (Z.to_N (single_double v), r')
      | _ => Err TypeError
      end)). intros t. destruct t; try apply steady_err; (apply steady_bind; [apply st_uint|]; intros v; apply steady_ret).
Qed.
Lemma st_bool : steady mu_bool.
Proof. apply (steady_head (fun t r => match t with TgBool x => Ok (x, r) | _ => Err TypeError end)). intros t. destruct t; try apply steady_err. apply steady_ret. Qed.
Lemma st_array : steady mu_array.
Proof.
  apply (steady_head (fun t r => match t with
      | TgArr n => Ok (n, r)
      | TgArrN k => let* (n, r') := mu_uint k r in if 2147483647 <? n then Err ValueError else Ok (n, r')
      | _ => Err TypeError
      end)). intros t. destruct t; try apply steady_err; [apply steady_ret|]. apply steady_bind; [apply st_uint|]. intros v. apply steady_if; [apply steady_err|apply steady_ret].
Qed.
Lemma st_map : steady mu_map.
Proof.
  apply (steady_head (fun t r => match t with
      | TgMap n => Ok (n, r)
      | TgMapN k => let* (n, r') := mu_uint k r in if 2147483647 <? n then Err ValueError else Ok (n, r')
      | _ => Err TypeError
      end)). intros t. destruct t; try apply steady_err; [apply steady_ret|]. apply steady_bind; [apply st_uint|]. intros v. apply steady_if; [apply steady_err|apply steady_ret].
Qed.
Lemma st_header : steady mu_header.
Proof.
  apply (steady_head (fun t r => match t with
      | TgStr n => Ok (n, r)
      | TgStrN k | TgBin k => let* (n, r') := mu_uint k r in if 2147483647 <? n then Err ValueError else Ok (n, r')
      | _ => Err TypeError
      end)). intros t. destruct t; try apply steady_err; try apply steady_ret; (apply steady_bind; [apply st_uint|]; intros v; apply steady_if; [apply steady_err|apply steady_ret]).
Qed.
Lemma st_string : steady mu_string.
Proof.
  unfold mu_string. apply steady_bind; [unfold mu_bytes; apply steady_bind; [apply st_header|intros n; apply st_payload]|]. intros b. apply steady_pure. intros x. apply steady_ret.
Qed.

(** ** the parts of a document *)
Lemma st_read_map conv n : forall acc, steady (jread_map conv n acc).
Proof.
  induction n as [|n IH]; intros acc; cbn [jread_map]; [apply steady_ret|]. apply steady_bind; [apply st_string|]. intros k. apply steady_bind; [apply st_value|]. intros o.
  apply (steady_pure (conv o) (fun v r1 => jread_map conv n (dset acc k v) r1)). intros v. apply IH.
Qed.
Lemma st_props : steady jread_props.
Proof. unfold jread_props. apply steady_bind; [apply st_int|]. intros _. apply steady_bind; [apply st_map|]. intros n. apply st_read_map. Qed.
Lemma st_field : steady jread_field.
Proof.
  unfold jread_field. apply steady_bind; [apply st_string|]. intros f. apply steady_bind; [apply st_bool|]. intros e. apply steady_bind; [apply st_string|]. intros x. destruct e.
  - apply steady_bind; [apply st_map|]. intros n. apply steady_bind; [apply st_read_map|]. intros args. apply steady_ret.
  - apply (steady_pure (jplain x) (fun t r2 => Ok (f, t, r2))). intros t. apply steady_ret.
Qed.
Lemma st_fields n : forall acc, steady (jread_fields n acc).
Proof.
  induction n as [|n IH]; intros acc; cbn [jread_fields]; [apply steady_ret|]. apply steady_bind; [apply st_field|]. intros ft. apply steady_if; [apply steady_err|apply IH].
Qed.
Lemma st_names n : steady (jread_names n).
Proof. induction n as [|n IH]; cbn [jread_names]; [apply steady_ret|]. apply steady_bind; [apply st_string|]. intros x. apply steady_bind; [exact IH|]. intros q. apply steady_ret. Qed.
Lemma st_schemas names : steady (jread_schemas names).
Proof.
  induction names as [|x names IH]; cbn [jread_schemas]; [apply steady_ret|]. apply steady_bind; [apply st_int|]. intros n. apply steady_bind; [apply st_fields|]. intros fs.
  apply steady_bind; [exact IH|]. intros q. apply steady_ret.
Qed.
Lemma st_schema : steady jread_schema.
Proof.
  unfold jread_schema. apply steady_bind; [apply st_array|]. intros n. apply steady_bind; [apply st_names|]. intros names. apply steady_if; [apply st_schemas|apply steady_err].
Qed.
Lemma st_parts n : forall sb offs, steady (jread_parts n sb offs).
Proof. induction n as [|n IH]; intros sb offs; cbn [jread_parts]; [apply steady_ret|]. apply steady_bind; [apply st_string|]. intros x. apply IH. Qed.
Lemma st_texts_n n : forall acc, steady (jread_texts_n n acc).
Proof.
  induction n as [|n IH]; intros acc; cbn [jread_texts_n]; [apply steady_ret|]. apply steady_bind; [apply st_string|]. intros c. apply steady_bind; [apply st_array|]. intros k.
  apply steady_bind; [apply st_parts|]. intros p. apply steady_if; [apply steady_err|apply IH].
Qed.
Lemma st_texts : steady jread_texts.
Proof. unfold jread_texts. apply steady_bind; [apply st_int|]. intros _. apply steady_bind; [apply st_map|]. intros n. apply st_texts_n. Qed.
Lemma st_ints n : steady (jread_ints n).
Proof. induction n as [|n IH]; cbn [jread_ints]; [apply steady_ret|]. apply steady_bind; [apply st_int|]. intros x. apply steady_bind; [exact IH|]. intros q. apply steady_ret. Qed.
Lemma st_cell texts t key : steady (jcell texts t key).
Proof.
  destruct t; unfold jcell; try apply steady_err; try (apply steady_bind; [first [apply st_int|apply st_long|apply st_double|apply st_bool|apply st_string]|]; intros v; apply steady_ret).
  - apply steady_bind; [apply st_array|]. intros n. apply steady_bind; [apply st_payload|]. intros x. apply steady_ret.
  - apply steady_bind; [apply st_array|]. intros n. apply steady_bind; [apply st_ints|]. intros x. apply steady_ret.
  - apply steady_bind; [apply st_int|]. intros a. apply steady_bind; [apply st_int|]. intros b. destruct (dget texts key) as [[u offs]|]; [|apply steady_err].
    apply (steady_pure (java_get offs a) (fun x r1 => let* y := java_get offs b in Ok (JSpan key x y, r1))). intros x. apply (steady_pure (java_get offs b) (fun y r1 => Ok (JSpan key x y, r1))). intros y. apply steady_ret.
  - apply steady_bind; [apply st_value|]. intros o. destruct o; try apply steady_err. apply steady_ret.
  - apply steady_bind; [apply st_array|]. intros n. apply steady_if; [apply steady_err|]. apply steady_bind; [apply st_int|]. intros a. apply steady_bind; [apply st_int|]. intros b. apply steady_ret.
Qed.
Lemma cell_wants texts t key x : jcell texts t key [] <> Ok x.
Proof. destruct t; discriminate. Qed.
Definition nil_more (t : tname) (r : list N) : res (option jv * list N) := let* r' := match t with TSpan => mu_nil r | _ => Ok r end in Ok (None, r').
Lemma st_nil_more t : steady (nil_more t).
Proof.
  destruct t; try apply steady_ret.
  apply (steady_eq (fun bs => match bs with [] => Err OutOfData | b :: r => match classify b with TgNil => Ok (@None jv, r) | _ => Err TypeError end end)).
  - intros [|b bs]; [reflexivity|]. unfold nil_more, mu_nil. destruct (classify b); reflexivity.
  - apply (steady_head (fun g r => match g with TgNil => Ok (@None jv, r) | _ => Err TypeError end)). intros g. destruct g; try apply steady_err. apply steady_ret.
Qed.
Lemma cell_opt_cases texts t key bs : jcell_opt texts t key bs =
  match bs with
  | [] => Err OutOfData
  | b :: r => match classify b with TgNil => nil_more t r | _ => let* (v, r') := jcell texts t key bs in Ok (Some v, r') end
  end.
Proof. unfold jcell_opt, mu_try_nil, nil_more. destruct bs as [|b r]; [reflexivity|]. destruct (classify b); reflexivity. Qed.
Lemma st_cell_opt texts t key : steady (jcell_opt texts t key).
Proof.
  apply (steady_eq _ _ (cell_opt_cases texts t key)).
  assert (SV : steady (fun bs => let* (v, r') := jcell texts t key bs in Ok (Some v, r'))) by (apply steady_bind; [apply st_cell|]; intros v; apply steady_ret).
  assert (W : forall x, (let* (v, r') := jcell texts t key [] in Ok (Some v, r')) <> Ok x).
  { intros x. pose proof (cell_wants texts t key) as H. destruct (jcell texts t key []) as [y|]; [exfalso; exact (H y eq_refl)|discriminate]. }
  set (V := fun bs => let* (v, r') := jcell texts t key bs in Ok (Some v, r')) in *.
  split.
  - intros [|b b1] b2 a r H.
    + right. cbn [app] in H. destruct b2 as [|b b2]; [discriminate|]. destruct (classify b) eqn:Ec;
        match type of Ec with
        | _ = TgNil => destruct (steady_eats _ _ _ _ (st_nil_more t) H) as [p ->]; exists (b :: p); repeat split; discriminate
        | _ => destruct (proj1 SV [] (b :: b2) a r H) as [(r1 & p & _ & E & _)|(b3 & N3 & E & _)]; [exfalso; exact (W _ E)|exists b3; repeat split; assumption]
        end.
    + cbn [app] in H. destruct (classify b) eqn:Ec;
        match type of Ec with
        | _ = TgNil => destruct (proj1 (st_nil_more t) b1 b2 a r H) as [(r1 & p & -> & E & Ep)|(b3 & N3 & -> & E)]; [left; exists r1, (b :: p); split; [reflexivity|]; split; [exact E|cbn [app]; rewrite <- Ep; reflexivity]|right; exists b3; auto]
        | _ => exact (proj1 SV (b :: b1) b2 a r H)
        end.
  - intros [|b b1] b2 a r H; [discriminate|]. cbn [app]. destruct (classify b) eqn:Ec;
      match type of Ec with
      | _ = TgNil => apply (proj2 (st_nil_more t)); exact H
      | _ => exact (proj2 SV (b :: b1) b2 a r H)
      end.
Qed.
Lemma st_cells texts t key n : steady (jcells texts t key n).
Proof.
  induction n as [|n IH]; cbn [jcells]; [apply steady_ret|]. apply steady_bind; [apply st_cell_opt|]. intros o. apply steady_bind; [exact IH|]. intros q. apply steady_ret.
Qed.
Lemma st_columns texts : forall fs nodes, steady (jread_columns texts fs nodes).
Proof.
  induction fs as [|[f t] fs IH]; intros nodes; cbn [jread_columns]; [apply steady_ret|]. apply steady_bind; [apply st_bool|]. intros sp. apply steady_if; [apply steady_err|].
  apply steady_bind; [apply st_array|]. intros n. 
  apply (steady_pure (jkey t) (fun key r1 => match ty_name t with
      | JTNil => Err NotImplementedError
      | JTMissing => Err AttributeError
      | JT tn => let* (col, r2) := jcells texts tn key (length nodes) r1 in jread_columns texts fs (put_column f nodes col) r2
      end)). intros key. destruct (ty_name t) as [|tn|]; try apply steady_err. apply steady_bind; [apply st_cells|]. intros col. apply IH.
Qed.
Lemma st_layer texts fs : steady (jread_layer texts fs).
Proof.
  unfold jread_layer. apply steady_bind; [apply st_int|]. intros _. apply steady_bind; [apply st_int|]. intros n. apply steady_if; [apply steady_err|apply st_columns].
Qed.
Lemma st_layers texts sch : steady (jread_layers texts sch).
Proof.
  induction sch as [|[k fs] sch IH]; cbn [jread_layers]; [apply steady_ret|]. apply steady_bind; [apply st_layer|]. intros ns. apply steady_bind; [exact IH|]. intros q. apply steady_ret.
Qed.
Lemma st_body : steady java_body.
Proof.
  unfold java_body. apply steady_bind; [apply st_payload|]. intros header. apply steady_if; [apply steady_err|]. apply steady_bind; [apply st_props|]. intros props.
  apply steady_bind; [apply st_schema|]. intros sch. apply steady_bind; [apply st_texts|]. intros texts. apply steady_bind; [apply st_layers|]. intros ls. cbv zeta.
  apply (steady_pure (mapM (fun kl => let* ns := jresolve (map (fun kl => (fst kl, length (snd (snd kl)))) ls) (fst (snd kl)) (snd (snd kl)) in Ok (fst kl, (fst (snd kl), ns))) ls)
    (fun ms r4 => Ok (mkJDoc props (map (fun kt => (fst kt, fst (snd kt))) texts) ms, r4))). intros ms. apply steady_ret.
Qed.

(** ** documents *)
Lemma body_of bs j : java_decode bs = Ok j -> exists r, java_body bs = Ok (j, r).
Proof. rewrite java_decode_body. destruct (java_body bs) as [[k r]|]; [|discriminate]. cbn [rbind]. intros H. apply Ok_inj in H. subst k. exists r. reflexivity. Qed.
Lemma body_err bs e : java_body bs = Err e -> java_decode bs = Err e.
Proof. rewrite java_decode_body. intros ->. reflexivity. Qed.
Lemma body_ok bs j r : java_body bs = Ok (j, r) -> java_decode bs = Ok j.
Proof. rewrite java_decode_body. intros ->. reflexivity. Qed.
Lemma body_extent p r j : java_body (p ++ r) = Ok (j, r) -> (forall r', java_decode (p ++ r') = Ok j) /\ forall b1 b2, p = b1 ++ b2 -> b2 <> [] -> java_decode b1 = Err OutOfData.
Proof.
  intros H. destruct (proj1 st_body p r j r H) as [(r1 & q & E & H1 & _)|(b3 & N3 & E & _)].
  2: { exfalso. apply (f_equal (@length N)) in E. rewrite app_length in E. destruct b3; [congruence|cbn in E; lia]. }
  assert (r1 = []) as -> by (destruct r1; [reflexivity|apply (f_equal (@length N)) in E; rewrite app_length in E; cbn in E; lia]).
  split.
  - intros r'. apply (body_ok _ _ r'). rewrite (proj2 st_body p r' j [] H1). reflexivity.
  - intros b1 b2 -> N2. destruct (proj1 st_body b1 b2 j [] H1) as [(r2 & q2 & E2 & _)|(b3 & _ & _ & E2)]; [|apply body_err; exact E2].
    exfalso. destruct r2, b2; try discriminate. congruence.
Qed.
Theorem java_extent bs j : java_decode bs = Ok j -> exists p r, bs = p ++ r /\ (forall r', java_decode (p ++ r') = Ok j) /\
  forall b1 b2, p = b1 ++ b2 -> b2 <> [] -> java_decode b1 = Err OutOfData.
Proof.
  intros H. destruct (body_of bs j H) as [r Hr]. destruct (steady_eats _ _ _ _ st_body Hr) as [p ->]. exists p, r. split; [reflexivity|]. eapply body_extent. exact Hr.
Qed.
Theorem java_written_extent j bytes : jdoc_ok j -> java_rereadable j -> java_encode j = Ok bytes ->
  forall b1 b2, bytes = b1 ++ b2 -> b2 <> [] -> java_decode b1 = Err OutOfData.
Proof.
  intros D RR H. destruct (java_body_again j bytes [] D RR H) as (k & E & _). rewrite app_nil_r in E. apply (body_extent bytes [] k). rewrite app_nil_r. exact E.
Qed.
