(** Proofs about Model_JCodec.v on bytes of any origin: the document. *)
From Verif Require Import PyBase PyBaseFacts Model_Text Model_Heap Model_Layer Model_Types Model_Msgpack Model_Codec Model_JUnits Model_JLayer Model_JStream Model_JCodec
  Spec_Msgpack Spec_JUnits Spec_JCodec Spec_JEncode Spec_JDecode Proof_Msgpack Proof_Decode Proof_JUnits Proof_JCodec Proof_JEncode2 Proof_JDecode.
Local Open Scope Z_scope.

(** ** properties and schema *)
Lemma jint_scalar z : - 2 ^ 63 <= z < 2 ^ 64 -> jscalar (jint z).
Proof.
  change (2 ^ 63) with 9223372036854775808. change (2 ^ 64) with 18446744073709551616. intros H. unfold jint.
  change (2 ^ 63) with 9223372036854775808. change (2 ^ 64) with 18446744073709551616.
  destruct (Z.ltb_spec z (-2147483648)); cbn [orb]; [|destruct (Z.ltb_spec 2147483647 z)].
  1, 2: apply js_long; unfold long_range; destruct (Z.leb_spec 9223372036854775808 z); lia.
  apply js_int. unfold int_range. lia.
Qed.
Lemma jprop_scalar o v : msg_value o -> jprop o = Ok v -> jscalar v.
Proof.
  intros [V R] H. destruct o; cbn in H; try discriminate; apply Ok_inj in H; subst v; inversion V; subst.
  - apply js_bool.
  - apply jint_scalar. apply R. reflexivity.
  - apply js_double. assumption.
  - apply js_str.
  - apply js_bin. assumption.
Qed.
Lemma jarg_scalar o v : msg_value o -> jarg o = Ok v -> jscalar v /\ float_only v.
Proof.
  intros V H. destruct (match o with MFloat _ => true | _ => false end) eqn:E.
  - destruct o; try discriminate. cbn in H. apply Ok_inj in H. subst v. destruct V as [V _]. inversion V as [| | |bb Hbb| | | |]; subst. destruct (to_float_again _ Hbb).
    split; [apply js_double; assumption|]. intros c X. injection X as <-. assumption.
  - assert (H' : jprop o = Ok v) by (destruct o; try discriminate; exact H). split; [eapply jprop_scalar; eassumption|].
    intros b ->. destruct o; cbn in H'; try discriminate. unfold jint in H'. destruct (_ || _)%bool; discriminate.
Qed.
Definition dict_of {A} (P : A -> Prop) (d : dict A) : Prop := NoDup (dkeys d) /\ forall k v, In (k, v) d -> P v.
Lemma dict_of_nil {A} (P : A -> Prop) : dict_of P [].
Proof. split; [constructor|]. intros k v []. Qed.
Lemma dset_In {A} (d : dict A) k v k' v' : In (k', v') (dset d k v) -> (k', v') = (k, v) \/ In (k', v') d.
Proof.
  induction d as [|[a b] d IH]; cbn [dset]; [intros [E|[]]; left; congruence|]. destruct (str_eqb k a) eqn:E; intros [H|H].
  - apply str_eqb_eq in E. subst a. left. congruence.
  - right. right. assumption.
  - right. left. assumption.
  - destruct (IH H); [left; assumption|right; right; assumption].
Qed.
Lemma dict_of_dset {A} (P : A -> Prop) d k v : dict_of P d -> P v -> dict_of P (dset d k v).
Proof.
  intros [ND H] Hv. split; [apply NoDup_dset; assumption|]. intros k' v' I. destruct (dset_In _ _ _ _ _ I) as [E|E]; [injection E as -> ->; exact Hv|]. eapply H; exact E.
Qed.
Lemma dict_of_snoc {A} (P : A -> Prop) (d : dict A) kv : dict_of P d -> dmem d (fst kv) = false -> P (snd kv) -> dict_of P (d ++ [kv]).
Proof.
  intros [ND H] M Hv. destruct kv as [k v]. cbn [fst snd] in *. split.
  - unfold dkeys. rewrite map_app. apply NoDup_snoc; [exact ND|]. intros I. apply (dmem_In d k) in I. rewrite M in I. discriminate.
  - intros k' v' I. apply in_app_or in I. destruct I as [I|[I|[]]]; [eapply H; exact I|injection I as -> ->; exact Hv].
Qed.
Lemma map_good conv (P : jv -> Prop) n : (forall o v, msg_value o -> conv o = Ok v -> P v) -> forall acc, dict_of P acc -> good (dict_of P) (jread_map conv n acc).
Proof.
  intros HC. induction n as [|n IH]; intros acc Ha; cbn [jread_map]; [apply good_ret; assumption|].
  eapply good_bind; [apply muString_good|]. intros k _. eapply good_bind; [apply muValue_good|]. intros o Ho. apply good_pure. intros v E.
  apply IH. apply dict_of_dset; [assumption|]. eapply HC; eassumption.
Qed.
Lemma props_good : good (dict_of jscalar) jread_props.
Proof.
  unfold jread_props. eapply good_bind; [apply muInt_good|]. intros _ _. eapply good_bind; [apply muMap_good|]. intros n _.
  apply map_good; [exact jprop_scalar|apply dict_of_nil].
Qed.
(** a type as it is read *)
Definition type_read (t : jdtype) : Prop := (forall tn, ty_name t = JT tn -> tn <> TUnknown) /\ dict_of (fun v => jscalar v /\ float_only v) (ty_args t).
Lemma jname_from_known x tn : jname_from x = JT tn -> tn <> TUnknown.
Proof.
  unfold jname_from. destruct (str_eqb x (s "nil")); [discriminate|]. destruct (string_type x) as [t|] eqn:E; [|discriminate]. intros H. injection H as <-.
  eapply string_type_known; exact E.
Qed.
Lemma field_good : good (fun ft => type_read (snd ft)) jread_field.
Proof.
  unfold jread_field. eapply good_bind; [apply muString_good|]. intros f _. eapply good_bind; [apply muBool_good|]. intros ext _.
  eapply good_bind; [apply muString_good|]. intros x _. destruct ext.
  - eapply good_bind; [apply muMap_good|]. intros n _. eapply good_bind; [apply map_good; [exact jarg_scalar|apply dict_of_nil]|].
    intros args Ha. apply good_ret. split; [intros tn E; eapply jname_from_known; exact E|exact Ha].
  - apply good_pure. intros t E. apply good_ret. unfold jplain in E. assert (t = mkJT (jname_from x) []) as ->.
    { destruct (jname_from x) as [|tn|]; try discriminate. destruct tn; try discriminate; apply Ok_inj in E; symmetry; exact E. }
    split; [intros tn X; eapply jname_from_known; exact X|apply dict_of_nil].
Qed.
Lemma fields_good n : forall acc, dict_of type_read acc -> good (dict_of type_read) (jread_fields n acc).
Proof.
  induction n as [|n IH]; intros acc Ha; cbn [jread_fields]; [apply good_ret; assumption|].
  eapply good_bind; [apply field_good|]. intros ft Hf. apply good_if; intros E; [apply good_err|]. apply IH. apply dict_of_snoc; assumption.
Qed.
Definition schema_read (ks : list pystr) (d : dict (dict jdtype)) : Prop := dkeys d = ks /\ forall k fs, In (k, fs) d -> dict_of type_read fs.
Lemma schemas_good ks : good (schema_read ks) (jread_schemas ks).
Proof.
  induction ks as [|x ks IH]; cbn [jread_schemas]; [apply good_ret; split; [reflexivity|intros k fs []]|].
  eapply good_bind; [apply muInt_good|]. intros n _. eapply good_bind; [apply fields_good, dict_of_nil|]. intros fs Hf.
  eapply good_bind; [exact IH|]. intros q [Hq Hq']. apply good_ret. split; [cbn [dkeys map fst]; f_equal; exact Hq|].
  intros k gs [E|I]; [injection E as <- <-; exact Hf|eapply Hq'; exact I].
Qed.
Lemma names_good n : good (fun _ => True) (jread_names n).
Proof.
  induction n as [|n IH]; cbn [jread_names]; [apply good_ret; exact I|]. eapply good_bind; [apply muString_good|]. intros x _.
  eapply good_bind; [exact IH|]. intros q _. apply good_ret. exact I.
Qed.
Lemma schema_good : good (fun d => NoDup (dkeys d) /\ forall k fs, In (k, fs) d -> dict_of type_read fs) jread_schema.
Proof.
  unfold jread_schema. eapply good_bind; [apply muArray_good|]. intros n _. eapply good_bind; [apply names_good|]. intros ks _.
  apply good_if; intros E; [|apply good_err]. eapply good_weak; [|apply schemas_good]. intros d [<- H]. split; [|exact H].
  apply names_nodup_inv. exact E.
Qed.

(** ** texts *)
Definition text_read (p : list N * list Z) : Prop :=
  exists x, fst p = utf16 x /\ Forall scalar x /\ forall o, In o (snd p) -> exists k, 0 <= k <= zlen x /\ o = upos x k.
Lemma upos_app x y k : 0 <= k <= zlen x -> upos (x ++ y) k = upos x k.
Proof.
  intros H. assert (zlen x <= zlen (x ++ y)) by (unfold zlen; rewrite app_length; lia). rewrite !upos_in by lia. f_equal. f_equal.
  rewrite firstn_app. replace (Z.to_nat k - length x)%nat with 0%nat by (unfold zlen in H; lia). rewrite firstn_O, app_nil_r. reflexivity.
Qed.
Lemma parts_good n : forall sb offs, text_read (sb, offs) -> good text_read (jread_parts n sb offs).
Proof.
  induction n as [|n IH]; intros sb offs Ht; cbn [jread_parts]; [apply good_ret; exact Ht|].
  eapply good_bind; [apply muString_good|]. intros y Hy. cbv zeta. apply IH. destruct Ht as (x & Ex & Sx & Ho). cbn [fst snd] in *. subst sb.
  exists (x ++ y). cbn [fst snd]. split; [symmetry; apply utf16_app|]. split; [apply Forall_app; split; assumption|].
  assert (L : zlen x <= zlen (x ++ y)) by (unfold zlen; rewrite app_length; lia). pose proof (zlen_nonneg (x ++ y)).
  intros o I. apply in_app_or in I. destruct I as [I|[<-|[]]].
  - destruct (Ho o I) as (k & Hk & ->). exists k. split; [lia|]. symmetry. apply upos_app. assumption.
  - exists (zlen (x ++ y)). split; [lia|]. rewrite upos_len, utf16_app. reflexivity.
Qed.
Lemma texts_n_good n : forall acc, dict_of text_read acc -> good (dict_of text_read) (jread_texts_n n acc).
Proof.
  induction n as [|n IH]; intros acc Ha; cbn [jread_texts_n]; [apply good_ret; assumption|].
  eapply good_bind; [apply muString_good|]. intros c _. eapply good_bind; [apply muArray_good|]. intros k _. eapply good_bind.
  - apply parts_good. exists []. split; [reflexivity|]. split; [constructor|]. intros o [<-|[]]. exists 0. split; [unfold zlen; cbn; lia|reflexivity].
  - intros p Hp. apply good_if; intros E; [apply good_err|]. apply IH. apply dict_of_snoc; assumption.
Qed.
Lemma texts_good : good (dict_of text_read) jread_texts.
Proof.
  unfold jread_texts. eapply good_bind; [apply muInt_good|]. intros _ _. eapply good_bind; [apply muMap_good|]. intros n _. apply texts_n_good, dict_of_nil.
Qed.
