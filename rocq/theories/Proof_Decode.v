(** What parsing any bytes gives. *)
From Verif Require Import PyBase PyBaseFacts Model_Text Model_Heap Model_Layer Model_Types Model_Msgpack Model_Document Model_Codec
  Spec_Layer Spec_Types Spec_Msgpack Spec_Document Spec_Codec Spec_Decode Proof_Msgpack Proof_Layout Proof_Codec.
Local Open Scope Z_scope.

(** ** What is left after reading something *)
Lemma take_bytes k bs x r : bytes bs -> take k bs = Ok (x, r) -> bytes r.
Proof.
  intros Hb. unfold take. destruct (zlen bs <? k); [discriminate|]. intros H. assert (r = skipn (Z.to_nat k) bs) by congruence. subst r.
  rewrite <- (firstn_skipn (Z.to_nat k) bs) in Hb. apply bytes_app in Hb. apply Hb.
Qed.
Lemma uint_bytes k bs x r : bytes bs -> read_uint k bs = Ok (x, r) -> bytes r.
Proof.
  unfold read_uint. intros Hb H. destruct (take k bs) as [[b r1]|] eqn:E; [|discriminate]. cbn [rbind] in H. assert (r = r1) by congruence. subst. eapply take_bytes; eassumption.
Qed.
Lemma skip_bytes_bytes k bs x r : bytes bs -> skip_bytes k bs = Ok (x, r) -> bytes r.
Proof.
  unfold skip_bytes. intros Hb H. destruct (take k bs) as [[b r1]|] eqn:E; [|discriminate]. cbn [rbind] in H. assert (r = r1) by congruence. subst. eapply take_bytes; eassumption.
Qed.
Lemma skip_n_bytes sk : (forall bs x r, bytes bs -> sk bs = Ok (x, r) -> bytes r) -> forall n bs x r, bytes bs -> skip_n sk n bs = Ok (x, r) -> bytes r.
Proof.
  intros Hs n. induction n as [|n IH]; intros bs x r Hb H; cbn [skip_n] in H; [congruence|].
  destruct (sk bs) as [[u r1]|] eqn:E; [|discriminate]. cbn [rbind] in H. eapply IH; [|exact H]. eapply Hs; eassumption.
Qed.
Lemma skip_rest f : forall bs x r, bytes bs -> skip f bs = Ok (x, r) -> bytes r.
Proof.
  induction f as [|f IH]; intros bs x r Hb H; [discriminate|]. destruct bs as [|b bs]; [discriminate|]. inversion Hb; subst. cbn [skip] in H.
  destruct (classify b) as [z|n|n|n| |y|k| |k|k|k|k|k| |n|k|]; try discriminate H;
    try (assert (r = bs) by congruence; subst; assumption);
    try (eapply skip_bytes_bytes; [|exact H]; assumption);
    try (eapply skip_n_bytes; [exact IH| |exact H]; assumption);
    try (destruct (read_uint k bs) as [[n r1]|] eqn:E; [|discriminate]; cbn [rbind] in H;
         first [eapply skip_bytes_bytes; [|exact H] | eapply skip_n_bytes; [exact IH| |exact H]]; eapply uint_bytes; [|exact E]; assumption).
Qed.
Lemma skip1_bytes bs x r : bytes bs -> skip1 bs = Ok (x, r) -> bytes r.
Proof.
  unfold skip1. intros Hb H. destruct (skip (S (length bs)) bs) as [[u q]|e] eqn:E; [|destruct e; discriminate].
  assert (r = q) by congruence. subst. eapply skip_rest; eassumption.
Qed.
Lemma unpack1_bytes bs o r : bytes bs -> unpack1 bs = Ok (o, r) -> python_value o /\ bytes r.
Proof. intros Hb H. apply unpack_minimal in H; [|assumption]. tauto. Qed.

(** ** The schema *)
Definition type_read (t : dtype) : Prop := dt_class t = KBase /\ dt_name t <> TUnknown /\ NoDup (dkeys (dt_opts t)) /\ forall o v, In (o, v) (dt_opts t) -> option_value v.
Definition schema_read (fs : dict dtype) : Prop := NoDup (dkeys fs) /\ forall f t, In (f, t) fs -> type_read t.
Lemma string_type_known x t : string_type x = Ok t -> t <> TUnknown.
Proof.
  unfold string_type. destruct (find _ all_types) as [y|] eqn:E; [|discriminate]. intros H. assert (y = t) by congruence. subst y.
  apply find_some in E. destruct E as [E _]. intros ->. cbn in E. intuition discriminate.
Qed.
Lemma obj_value_option o v : python_value o -> obj_value o = Ok v -> option_value v.
Proof. intros P H. destruct P; cbn [obj_value] in H; try discriminate; injection H as <-; constructor; assumption. Qed.
Lemma dict_values_read a opts : python_value (MMap a) -> dict_values a = Ok opts -> NoDup (dkeys opts) /\ forall o v, In (o, v) opts -> option_value v.
Proof.
  intros P H. inversion P as [| | | | | | |d N V]; subst. unfold dict_values in H. apply mapM_Forall2 in H. clear P. split.
  - assert (E : dkeys opts = map fst a).
    { clear N V. induction H as [|[k o] [k' v] a opts Hkv H IH]; [reflexivity|]. cbn [fst snd] in Hkv.
      destruct (obj_value o); [|discriminate]. cbn [rbind] in Hkv. cbn. unfold dkeys in IH. rewrite IH. congruence. }
    rewrite E. assumption.
  - clear N. induction H as [|[k o] [k' v] a opts Hkv H IH]; intros o' v' Hin; [contradiction|]. inversion V; subst. cbn [fst snd] in *.
    destruct (obj_value o) as [w|] eqn:Ew; [|discriminate]. cbn [rbind] in Hkv. destruct Hin as [E|Hin].
    + assert (w = v') by congruence. subst. eapply obj_value_option; eassumption.
    + eapply IH; eassumption.
Qed.
Ltac step H e := match type of H with rbind ?x _ = _ => destruct x as [e|] eqn:?; [|discriminate H]; cbn [rbind] in H end.
Lemma field_read bs ft r : bytes bs -> read_field bs = Ok (ft, r) -> bytes r /\ type_read (snd ft).
Proof.
  unfold read_field. intros Hb H. step H p1. destruct p1 as [o1 r1]. step H name. step H p2. destruct p2 as [o2 r2]. step H p3. destruct p3 as [o3 r3]. step H ts. step H t.
  repeat match goal with E : unpack1 _ = Ok (_, _) |- _ => apply unpack1_bytes in E; [destruct E|assumption] end.
  match goal with E : string_type _ = _ |- _ => apply string_type_known in E end.
  destruct o2 as [|[]| | | | | |]; try discriminate.
  - step H p4. destruct p4 as [o4 r4]. match goal with E : unpack1 _ = Ok (_, _) |- _ => apply unpack1_bytes in E; [destruct E|assumption] end.
    destruct o4; try discriminate. step H opts. match goal with E : dict_values _ = _ |- _ => apply dict_values_read in E; [destruct E|assumption] end.
    assert (ft = (name, mkDT KBase t opts) /\ r = r4) as [-> ->] by (split; congruence). split; [assumption|]. repeat split; assumption.
  - assert (ft = (name, mkDT KBase t []) /\ r = r3) as [-> ->] by (split; congruence). split; [assumption|]. repeat split; try assumption; [constructor|intros ? ? []].
Qed.
Lemma fields_read n : forall acc bs fs r, bytes bs -> schema_read acc -> read_fields n acc bs = Ok (fs, r) -> bytes r /\ schema_read fs.
Proof.
  induction n as [|n IH]; intros acc bs fs r Hb A H; cbn [read_fields] in H.
  - assert (fs = acc /\ r = bs) as [-> ->] by (split; congruence). auto.
  - step H p1. destruct p1 as [ft r1]. destruct (dmem acc (fst ft)) eqn:Em; [discriminate|].
    match goal with E : read_field _ = _ |- _ => apply field_read in E; [destruct E as [B1 T]|assumption] end.
    eapply IH in H; [exact H|assumption|]. destruct A as [A1 A2]. split.
    + unfold dkeys. rewrite map_app. apply NoDup_snoc; [assumption|]. intros Hin. apply dmem_In in Hin. unfold pystr in *. congruence.
    + intros f t Hin. apply in_app_or in Hin. destruct Hin as [Hin|[E|[]]]; [eapply A2; exact Hin|]. subst ft. exact T.
Qed.
Lemma schemas_read names : forall bs sch r, bytes bs -> read_schemas names bs = Ok (sch, r) ->
  bytes r /\ map fst sch = names /\ forall k fs, In (k, fs) sch -> schema_read fs.
Proof.
  induction names as [|x names IH]; intros bs sch r Hb H; cbn [read_schemas] in H.
  - assert (sch = [] /\ r = bs) as [-> ->] by (split; congruence). split; [assumption|]. split; [reflexivity|intros ? ? []].
  - step H p1. destruct p1 as [o r1]. step H k. step H p2. destruct p2 as [fs r2]. step H p3. destruct p3 as [q r3].
    match goal with E : unpack1 _ = Ok (_, _) |- _ => apply unpack1_bytes in E; [destruct E|assumption] end.
    match goal with E : read_fields _ _ _ = Ok (_, _) |- _ => apply fields_read in E; [destruct E as [B2 S2]|assumption|split; [constructor|intros ? ? []]] end.
    match goal with E : read_schemas _ _ = Ok (_, _) |- _ => apply IH in E; [destruct E as [B3 [N3 S3]]|assumption] end.
    assert (sch = (x, fs) :: q /\ r = r3) as [-> ->] by (split; congruence). split; [assumption|]. split; [cbn; congruence|].
    intros k' fs' [E|Hin]; [congruence|eapply S3; exact Hin].
Qed.
Lemma names_nodup_inv l : names_nodup l = true -> NoDup l.
Proof.
  induction l as [|x l IH]; intros H; [constructor|]. cbn [names_nodup] in H. apply andb_prop in H. destruct H as [H1 H2]. constructor; [|auto].
  intros Hin. apply negb_true_iff in H1. rewrite <- not_true_iff_false in H1. apply H1. apply existsb_exists. exists x. split; [assumption|].
  destruct (str_eqb_spec x x); [reflexivity|congruence].
Qed.
Lemma texts_read o ts : python_value o -> as_texts o = Ok ts -> NoDup (dkeys ts).
Proof.
  intros P H. destruct o as [| | | | | | |d]; try discriminate. inversion P as [| | | | | | |d' N V]; subst. cbn [as_texts] in H. apply mapM_Forall2 in H.
  assert (E : dkeys ts = map fst d).
  { clear N V P. induction H as [|[k o] [k' v] a opts Hkv H IH]; [reflexivity|]. cbn [fst snd] in Hkv.
    destruct (as_strs o); [|discriminate]. cbn [rbind] in Hkv. cbn. unfold dkeys in IH. rewrite IH. congruence. }
  rewrite E. assumption.
Qed.
Lemma columns_read fs : forall bs cols r, bytes bs -> read_columns fs bs = Ok (cols, r) -> bytes r /\ length cols = length fs /\ Forall (Forall python_value) cols.
Proof.
  induction fs as [|ft fs IH]; intros bs cols r Hb H; cbn [read_columns] in H.
  - assert (cols = [] /\ r = bs) as [-> ->] by (split; congruence). auto.
  - step H p1. destruct p1 as [o1 r1]. destruct (truthy o1); [discriminate|]. step H p2. destruct p2 as [o2 r2].
    repeat match goal with E : unpack1 _ = Ok (_, _) |- _ => apply unpack1_bytes in E; [destruct E|assumption] end.
    destruct o2; try discriminate. step H p3. destruct p3 as [q r3].
    match goal with E : read_columns _ _ = Ok (_, _) |- _ => apply IH in E; [destruct E as [B3 [L3 S3]]|assumption] end.
    match type of H with Ok (?c :: q, r3) = _ => assert (cols = c :: q /\ r = r3) as [-> ->] by (split; congruence) end.
    split; [assumption|]. split; [cbn; congruence|]. constructor; [|assumption]. match goal with P : python_value (MArr _) |- _ => inversion P; assumption end.
Qed.
Lemma layers_read sch : forall bs ls r, bytes bs -> read_layers sch bs = Ok (ls, r) ->
  bytes r /\ Forall2 (fun kf nc => length (snd nc) = length (snd kf) /\ Forall (Forall python_value) (snd nc)) sch ls.
Proof.
  induction sch as [|[k fs] sch IH]; intros bs ls r Hb H; cbn [read_layers] in H.
  - assert (ls = [] /\ r = bs) as [-> ->] by (split; congruence). auto.
  - step H p0. destruct p0 as [u r1]. step H p1. destruct p1 as [nc r2]. step H p2. destruct p2 as [q r3].
    match goal with E : skip1 _ = Ok _ |- _ => apply skip1_bytes in E; [|assumption] end.
    match goal with E : read_layer _ _ = Ok _ |- _ => rename E into E1 end. unfold read_layer in E1. step E1 p3. destruct p3 as [o r4]. step E1 n. step E1 p5. destruct p5 as [cols r5].
    match goal with E : unpack1 _ = Ok (_, _) |- _ => apply unpack1_bytes in E; [destruct E|assumption] end.
    match goal with E : read_columns _ _ = Ok (_, _) |- _ => apply columns_read in E; [destruct E as [B3 [L3 S3]]|assumption] end.
    assert (nc = (n, cols) /\ r2 = r5) as [-> ->] by (split; congruence).
    match goal with E : read_layers _ _ = Ok (_, _) |- _ => apply IH in E; [destruct E as [B5 S5]|assumption] end.
    assert (ls = (n, cols) :: q /\ r = r3) as [-> ->] by (split; congruence). split; [assumption|]. constructor; [|assumption]. split; assumption.
Qed.

Record parsed (p : pdoc) : Prop := {
  pa_props : python_value (pd_props p);
  pa_texts : NoDup (dkeys (pd_texts p));
  pa_names : NoDup (map fst (pd_schema p));
  pa_fields : forall k fs, In (k, fs) (pd_schema p) -> schema_read fs;
  pa_layers : Forall2 (fun kf nc => length (snd nc) = length (snd kf) /\ Forall (Forall python_value) (snd nc)) (pd_schema p) (pd_layers p) }.
Lemma parse_parsed bs p : bytes bs -> parse bs = Ok p -> parsed p.
Proof.
  unfold parse. intros Hb H. destruct (list_eqb N.eqb (firstn 4 bs) magic); [|discriminate].
  assert (B0 : bytes (skipn 4 bs)) by (rewrite <- (firstn_skipn 4 bs) in Hb; apply bytes_app in Hb; apply Hb).
  step H p0. destruct p0 as [u r1]. step H p1. destruct p1 as [props r2]. step H p2. destruct p2 as [sch r3]. step H p3. destruct p3 as [u' r4]. step H p4. destruct p4 as [tx r5].
  step H texts. step H p6. destruct p6 as [ls r6]. assert (p = mkPD props sch texts ls) by congruence. subst p. clear H.
  match goal with E : skip1 (skipn 4 bs) = Ok _ |- _ => apply skip1_bytes in E; [|assumption] end.
  match goal with E : unpack1 r1 = Ok (_, _) |- _ => apply unpack1_bytes in E; [destruct E as [P1 B2]|assumption] end.
  match goal with E : decode_schema _ = Ok _ |- _ => rename E into E2 end. unfold decode_schema in E2. step E2 q. destruct q as [o r]. step E2 names.
  destruct (names_nodup names) eqn:En; [|discriminate]. apply names_nodup_inv in En.
  match goal with E : unpack1 r2 = Ok (_, _) |- _ => apply unpack1_bytes in E; [destruct E as [P2 B2']|assumption] end.
  apply schemas_read in E2; [destruct E2 as [B3 [N3 S3]]|assumption].
  match goal with E : skip1 r3 = Ok _ |- _ => apply skip1_bytes in E; [|assumption] end.
  match goal with E : unpack1 r4 = Ok (_, _) |- _ => apply unpack1_bytes in E; [destruct E as [P4 B5]|assumption] end.
  match goal with E : read_layers _ _ = Ok _ |- _ => apply layers_read in E; [destruct E as [B6 L6]|assumption] end.
  match goal with E : as_texts _ = Ok _ |- _ => apply texts_read in E; [|assumption] end.
  constructor; cbn [pd_props pd_texts pd_schema pd_layers]; try assumption. rewrite N3. assumption.
Qed.
