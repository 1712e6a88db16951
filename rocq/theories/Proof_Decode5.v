(** The exceptions of reading a file. *)
From Verif Require Import PyBase PyBaseFacts Model_Text Model_Heap Model_Layer Model_Types Model_Msgpack Model_Document Model_Codec
  Spec_Layer Spec_Types Spec_Msgpack Spec_Document Spec_Codec Spec_Decode Proof_Msgpack Proof_Layout Proof_Decode.
Local Open Scope Z_scope.

Definition among {A} (L : list exn) (r : res A) : Prop := forall e, r = Err e -> In e L.
Lemma among_ok {A} L (a : A) : among L (Ok a).
Proof. intros e H. discriminate. Qed.
Lemma among_err {A} L e : In e L -> @among A L (Err e).
Proof. intros Hin e' H. assert (e' = e) by congruence. subst. exact Hin. Qed.
Lemma among_bind {A B} L (r : res A) (k : A -> res B) : among L r -> (forall a, r = Ok a -> among L (k a)) -> among L (rbind r k).
Proof. intros H K. destruct r as [a|e]; cbn [rbind]; [apply K; reflexivity|]. intros e' E. apply H. congruence. Qed.
Lemma among_incl {A} L L' (r : res A) : among L r -> incl L L' -> among L' r.
Proof. intros H I e E. apply I, H, E. Qed.
Ltac inl := solve [cbn; tauto].
(** the exceptions of msgpack, with the two for want of bytes *)
Definition raw : list exn := [StopIteration; UnicodeError; ValueError; Unmodelled; OutOfFuel].
Lemma take_among k bs : among raw (take k bs).
Proof. unfold take. destruct (_ <? _); [apply among_err; inl|apply among_ok]. Qed.
Lemma uint_among k bs : among raw (read_uint k bs).
Proof. unfold read_uint. apply among_bind; [apply take_among|]. intros [a b] _. apply among_ok. Qed.
Lemma utf8_among n : forall bs, (length bs <= n)%nat -> among raw (utf8_decode bs).
Proof.
  induction n as [|n IH]; intros bs Hl; [destruct bs; [apply among_ok|simpl in Hl; lia]|].
  assert (K : forall r c, (length r <= n)%nat -> among raw (let* x := utf8_decode r in Ok (c :: x))) by (intros r c Hr; apply among_bind; [apply IH; assumption|intros; apply among_ok]).
  assert (E : @among pystr raw (Err UnicodeError)) by (apply among_err; inl).
  destruct bs as [|b0 r]; [apply among_ok|]. cbn [utf8_decode]. simpl length in Hl.
  destruct (N.ltb b0 0x80); [apply K; lia|]. destruct (N.ltb b0 0xC0); [exact E|].
  destruct (N.ltb b0 0xE0).
  { destruct r as [|b1 r]; [exact E|]. simpl length in Hl. destruct (_ && _)%bool; [apply K; lia|exact E]. }
  destruct (N.ltb b0 0xF0).
  { destruct r as [|b1 [|b2 r]]; try exact E. simpl length in Hl. destruct (_ && _)%bool; [apply K; lia|exact E]. }
  destruct (N.ltb b0 0xF8); [|exact E].
  destruct r as [|b1 [|b2 [|b3 r]]]; try exact E. simpl length in Hl. destruct (_ && _)%bool; [apply K; lia|exact E].
Qed.
Lemma ustr_among n bs : among raw (unpack_str n bs).
Proof. unfold unpack_str. apply among_bind; [apply take_among|]. intros [x r] _. apply among_bind; [eapply utf8_among; reflexivity|]. intros; apply among_ok. Qed.
Lemma ulist_among u : (forall bs, among raw (u bs)) -> forall n bs, among raw (unpack_list u n bs).
Proof.
  intros Hu. induction n as [|n IH]; intros bs; cbn [unpack_list]; [apply among_ok|]. apply among_bind; [apply Hu|]. intros [o r] _. apply among_bind; [apply IH|]. intros [? ?] _. apply among_ok.
Qed.
Lemma umap_among u : (forall bs, among raw (u bs)) -> forall n acc bs, among raw (unpack_map u n acc bs).
Proof.
  intros Hu. induction n as [|n IH]; intros acc bs; cbn [unpack_map]; [apply among_ok|]. apply among_bind; [apply Hu|]. intros [o r] _.
  destruct o; try (apply among_err; inl). apply among_bind; [apply Hu|]. intros [? ?] _. apply IH.
Qed.
Lemma unpack_among f : forall bs, among raw (unpack f bs).
Proof.
  induction f as [|f IH]; intros bs; [apply among_err; inl|]. destruct bs as [|b bs]; [apply among_err; inl|]. rewrite unpack_S.
  destruct (classify b) as [z|n|n|n| |y|k| |k|k|k|k|k| |n|k|]; try apply among_ok; try (apply among_err; inl); try apply ustr_among;
    repeat (apply among_bind; [first [apply uint_among|apply take_among|apply umap_among; exact IH|apply ulist_among; exact IH|eapply utf8_among; reflexivity]|intros [? ?] _ || intros ? _]);
    apply among_ok.
Qed.
Definition clean : list exn := [StopIteration; OutOfData; UnicodeError; ValueError; Unmodelled].
Lemma unpack1_among bs : among clean (unpack1 bs).
Proof.
  intros e H. pose proof (unpack_among _ _ e H) as Hin. cbn in Hin |- *. destruct Hin as [<-|[<-|[<-|[<-|[<-|[]]]]]]; try tauto. exfalso. revert H. apply unpack_nofuel. lia.
Qed.
(** skip *)
Lemma skip_bytes_among k bs : among raw (skip_bytes k bs).
Proof. unfold skip_bytes. apply among_bind; [apply take_among|]. intros [? ?] _. apply among_ok. Qed.
Lemma skip_n_among sk : (forall bs, among raw (sk bs)) -> forall n bs, among raw (skip_n sk n bs).
Proof. intros Hs. induction n as [|n IH]; intros bs; cbn [skip_n]; [apply among_ok|]. apply among_bind; [apply Hs|]. intros [? ?] _. apply IH. Qed.
Lemma skip_among f : forall bs, among raw (skip f bs).
Proof.
  induction f as [|f IH]; intros bs; [apply among_err; inl|]. destruct bs as [|b bs]; [apply among_err; inl|]. cbn [skip].
  destruct (classify b) as [z|n|n|n| |y|k| |k|k|k|k|k| |n|k|]; try apply among_ok; try (apply among_err; inl); try apply skip_bytes_among; try (apply skip_n_among; exact IH);
    (apply among_bind; [apply uint_among|intros [? ?] _]); first [apply skip_bytes_among|apply skip_n_among; exact IH].
Qed.
Definition skips (sk : list N -> res (unit * list N)) : Prop := forall bs u r, sk bs = Ok (u, r) -> (length r < length bs)%nat.
Lemma skip_bytes_len k bs u r : skip_bytes k bs = Ok (u, r) -> (length r <= length bs)%nat.
Proof. unfold skip_bytes. destruct (take k bs) as [[a b]|] eqn:E; [|discriminate]. cbn [rbind]. intros H. assert (r = b) by congruence. subst. eapply take_len. exact E. Qed.
Lemma skip_n_len sk : skips sk -> forall n bs u r, skip_n sk n bs = Ok (u, r) -> (length r <= length bs)%nat.
Proof.
  intros Hs. induction n as [|n IH]; intros bs u r H; cbn [skip_n] in H; [assert (r = bs) by congruence; subst; lia|].
  destruct (sk bs) as [[v q]|] eqn:E; [|discriminate]. cbn [rbind] in H. apply IH in H. apply Hs in E. lia.
Qed.
Lemma skip_shrinks f : skips (skip f).
Proof.
  induction f as [|f IH]; intros bs u r H; [discriminate|]. destruct bs as [|b bs]; [discriminate|]. cbn [skip length] in *.
  destruct (classify b) as [z|n|n|n| |y|k| |k|k|k|k|k| |n|k|]; try discriminate;
    try (assert (r = bs) by congruence; subst; lia); try (apply skip_bytes_len in H; lia); try (apply (skip_n_len _ IH) in H; lia);
    destruct (read_uint k bs) as [[n r1]|] eqn:E; try discriminate; cbn [rbind] in H; apply read_len in E; first [apply skip_bytes_len in H|apply (skip_n_len _ IH) in H]; lia.
Qed.
Lemma skip_bytes_nofuel k bs : skip_bytes k bs <> Err OutOfFuel.
Proof. unfold skip_bytes. pose proof (take_nofuel k bs). destruct (take k bs) as [[a b]|]; [discriminate|]. cbn [rbind]. congruence. Qed.
Lemma skip_n_nofuel sk m : skips sk -> (forall bs, (length bs < m)%nat -> sk bs <> Err OutOfFuel) -> forall n bs, (length bs < m)%nat -> skip_n sk n bs <> Err OutOfFuel.
Proof.
  intros Hs Hu. induction n as [|n IH]; intros bs Hl; cbn [skip_n]; [discriminate|]. pose proof (Hu bs Hl). destruct (sk bs) as [[o r]|] eqn:E; [|cbn [rbind]; congruence]. cbn [rbind].
  apply Hs in E. apply IH. lia.
Qed.
Lemma skip_nofuel f : forall bs, (length bs < f)%nat -> skip f bs <> Err OutOfFuel.
Proof.
  induction f as [|f IH]; intros bs Hl; [lia|]. destruct bs as [|b bs]; [discriminate|]. cbn [skip length] in *.
  assert (KL : forall n bs', (length bs' < f)%nat -> skip_n (skip f) n bs' <> Err OutOfFuel) by (apply skip_n_nofuel; [apply skip_shrinks|exact IH]).
  destruct (classify b) as [z|n|n|n| |y|k| |k|k|k|k|k| |n|k|]; try discriminate; try apply skip_bytes_nofuel; try (apply KL; lia);
    pose proof (read_nofuel k bs); destruct (read_uint k bs) as [[n r1]|] eqn:E; try (cbn [rbind]; congruence); cbn [rbind]; apply read_len in E; first [apply skip_bytes_nofuel|apply KL; lia].
Qed.
Lemma skip1_among bs : among clean (skip1 bs).
Proof.
  intros e H. unfold skip1 in H. destruct (skip (S (length bs)) bs) as [x|e'] eqn:E; [discriminate|]. pose proof (skip_among _ _ e' E) as Hin. cbn in Hin |- *.
  assert (e' <> OutOfFuel) by (intros ->; exact (skip_nofuel _ _ (Nat.lt_succ_diag_r _) E)).
  destruct Hin as [<-|[<-|[<-|[<-|[<-|[]]]]]]; try congruence; (match type of H with Err ?x = _ => assert (e = x) by congruence; subst e end); tauto.
Qed.

(** ** The file *)
Definition reading : list exn := [ValueError; StopIteration; OutOfData; UnicodeError; KeyError; NotImplementedError; Unmodelled].
Lemma un bs : among reading (unpack1 bs).
Proof. eapply among_incl; [apply unpack1_among|]. intros e. cbn. tauto. Qed.
Lemma sk bs : among reading (skip1 bs).
Proof. eapply among_incl; [apply skip1_among|]. intros e. cbn. tauto. Qed.
Lemma str_among o : among reading (as_str o).
Proof. destruct o; try apply among_ok; apply among_err; inl. Qed.
Lemma num_among o : among reading (as_num o).
Proof. destruct o; try apply among_ok; apply among_err; inl. Qed.
Lemma mapM_among {A B} (f : A -> res B) l : (forall x, among reading (f x)) -> among reading (mapM f l).
Proof. intros H. induction l as [|x l IH]; cbn [mapM]; [apply among_ok|]. apply among_bind; [apply H|]. intros y _. apply among_bind; [exact IH|]. intros; apply among_ok. Qed.
Lemma strs_among o : among reading (as_strs o).
Proof. destruct o; try (apply among_err; inl). apply mapM_among. intros x. apply str_among. Qed.
Lemma texts_among o : among reading (as_texts o).
Proof. destruct o; try (apply among_err; inl). apply mapM_among. intros x. apply among_bind; [apply strs_among|]. intros; apply among_ok. Qed.
Lemma type_among x : among reading (string_type x).
Proof. unfold string_type. destruct (find _ _); [apply among_ok|apply among_err; inl]. Qed.
Lemma values_among a : among reading (dict_values a).
Proof. apply mapM_among. intros [k o]. apply among_bind; [destruct o; try apply among_ok; apply among_err; inl|]. intros; apply among_ok. Qed.
Lemma field_among bs : among reading (read_field bs).
Proof.
  unfold read_field. apply among_bind; [apply un|]. intros [o1 r1] _. apply among_bind; [apply str_among|]. intros name _. apply among_bind; [apply un|]. intros [o2 r2] _.
  apply among_bind; [apply un|]. intros [o3 r3] _. apply among_bind; [apply str_among|]. intros ts _. apply among_bind; [apply type_among|]. intros t _.
  destruct o2 as [|[]| | | | | |]; try (apply among_err; inl); [|apply among_ok]. apply among_bind; [apply un|]. intros [o4 r4] _. destruct o4; try (apply among_err; inl).
  apply among_bind; [apply values_among|]. intros; apply among_ok.
Qed.
Lemma fields_among n : forall acc bs, among reading (read_fields n acc bs).
Proof.
  induction n as [|n IH]; intros acc bs; cbn [read_fields]; [apply among_ok|]. apply among_bind; [apply field_among|]. intros [ft r] _. destruct (dmem _ _); [apply among_err; inl|apply IH].
Qed.
Lemma schemas_among names : forall bs, among reading (read_schemas names bs).
Proof.
  induction names as [|x names IH]; intros bs; cbn [read_schemas]; [apply among_ok|]. apply among_bind; [apply un|]. intros [o r] _. apply among_bind; [apply num_among|]. intros k _.
  apply among_bind; [apply fields_among|]. intros [fs r2] _. apply among_bind; [apply IH|]. intros [q r3] _. apply among_ok.
Qed.
Lemma columns_among fs : forall bs, among reading (read_columns fs bs).
Proof.
  induction fs as [|ft fs IH]; intros bs; cbn [read_columns]; [apply among_ok|]. apply among_bind; [apply un|]. intros [o r] _. destruct (truthy o); [apply among_err; inl|].
  apply among_bind; [apply un|]. intros [o2 r2] _. destruct o2; try (apply among_err; inl). apply among_bind; [apply IH|]. intros [? ?] _. apply among_ok.
Qed.
Lemma layers_among sch : forall bs, among reading (read_layers sch bs).
Proof.
  induction sch as [|[k fs] sch IH]; intros bs; cbn [read_layers]; [apply among_ok|]. apply among_bind; [apply sk|]. intros [? r] _. apply among_bind.
  - unfold read_layer. apply among_bind; [apply un|]. intros [o r1] _. apply among_bind; [apply num_among|]. intros n _. apply among_bind; [apply columns_among|]. intros [? ?] _. apply among_ok.
  - intros [nc r2] _. apply among_bind; [apply IH|]. intros [? ?] _. apply among_ok.
Qed.
Lemma parse_among bs e : parse bs = Err e -> In e reading.
Proof.
  revert e. change (among reading (parse bs)). unfold parse. destruct (list_eqb _ _ _); [|apply among_err; inl]. apply among_bind; [apply sk|]. intros [? r1] _. apply among_bind; [apply un|]. intros [props r2] _.
  apply among_bind.
  { unfold decode_schema. apply among_bind; [apply un|]. intros [o r] _. apply among_bind; [apply strs_among|]. intros names _. destruct (names_nodup names); [apply schemas_among|apply among_err; inl]. }
  intros [sch r3] _. apply among_bind; [apply sk|]. intros [? r4] _. apply among_bind; [apply un|]. intros [tx r5] _. apply among_bind; [apply texts_among|]. intros texts _.
  apply among_bind; [apply layers_among|]. intros [ls ?] _. apply among_ok.
Qed.
