From Verif Require Import PyBase PyBaseFacts Model_Heap Model_Msgpack Model_Lazy Model_Collection Model_Boundary Model_JStream
  Spec_Msgpack Spec_Cut Spec_Collection Spec_Boundary Spec_AnyFile Spec_JStream Proof_Msgpack Proof_Cut Proof_Collection Proof_Collection2 Proof_JStream.
Local Open Scope Z_scope.

(** ** opening *)
Lemma payload4 x : mu_payload 4 (dmf1 ++ x) = Ok (dmf1, x).
Proof. unfold mu_payload. rewrite take_app by reflexivity. reflexivity. Qed.
Lemma named_codec inflate name comp b : java_codec inflate name comp -> utf8_encode name = Ok b -> exists dec, sr_named inflate b = Ok dec /\ zlen b < 2147483648 /\ forall x, dec (comp x) = Ok x.
Proof.
  intros [(-> & C)|[(-> & C)|(-> & c1 & c2 & C & C1 & C2)]] E; vm_compute in E; apply Ok_inj in E; subst b; eexists; (split; [reflexivity|split; [reflexivity|]]); intros x.
  - rewrite C. reflexivity.
  - apply C.
  - cbv beta. rewrite C, C2. cbn [rbind]. apply C1.
Qed.
Lemma codec_fits inflate name comp : java_codec inflate name comp -> str_fits name.
Proof.
  intros J. assert (Q : exists a, pack (MStr name) = Ok a).
  { destruct J as [(-> & _)|[(-> & _)|(-> & _)]]; eexists; vm_compute; reflexivity. }
  apply pack_fits in Q. inversion Q. assumption.
Qed.
Lemma opens inflate name comp per rest : java_codec inflate name comp -> - 2147483648 <= per < 2147483648 ->
  exists dec, sr_open inflate None (header name per ++ rest) = Ok (mkSR rest dec None) /\ forall x, dec (comp x) = Ok x.
Proof.
  intros J P. pose proof (codec_fits _ _ _ J) as F1.
  assert (E1 : exists a, pack (MStr name) = Ok a) by (apply pack_fits; constructor; exact F1).
  assert (E2 : exists b, pack (MInt per) = Ok b) by (apply pack_fits; constructor; lia).
  destruct E1 as [a E1], E2 as [b E2]. rewrite (header_packs _ _ _ _ E1 E2). rewrite <- !app_assoc.
  destruct (mu_name name a (b ++ [194%N] ++ rest) E1) as (u & U & V & _). destruct (named_codec _ _ _ _ J U) as (dec & D & S & I). exists dec. split; [|exact I].
  unfold sr_open. rewrite payload4. cbn [rbind]. change (list_eqb N.eqb dmf1 dmf1) with true. cbn [negb]. rewrite (V S). cbn [rbind]. rewrite D. cbn [rbind].
  rewrite (mu_int_of _ _ _ (unpack1_pack _ _ ([194%N] ++ rest) (pv_int per) E2)).
  destruct (Z.ltb_spec per (-2147483648)); [lia|]. destruct (Z.ltb_spec 2147483647 per); [lia|]. reflexivity.
Qed.
Lemma too_many inflate name comp per rest : java_codec inflate name comp -> - 9223372036854775808 <= per < 18446744073709551616 -> ~ (- 2147483648 <= per < 2147483648) ->
  sr_open inflate None (header name per ++ rest) = Err OverflowError.
Proof.
  intros J P Q. pose proof (codec_fits _ _ _ J) as F1.
  assert (E1 : exists a, pack (MStr name) = Ok a) by (apply pack_fits; constructor; exact F1).
  assert (E2 : exists b, pack (MInt per) = Ok b) by (apply pack_fits; constructor; lia).
  destruct E1 as [a E1], E2 as [b E2]. rewrite (header_packs _ _ _ _ E1 E2). rewrite <- !app_assoc.
  destruct (mu_name name a (b ++ [194%N] ++ rest) E1) as (u & U & V & _). destruct (named_codec _ _ _ _ J U) as (dec & D & S & I).
  unfold sr_open. rewrite payload4. cbn [rbind]. change (list_eqb N.eqb dmf1 dmf1) with true. cbn [negb]. rewrite (V S). cbn [rbind]. rewrite D. cbn [rbind].
  rewrite (mu_int_of _ _ _ (unpack1_pack _ _ ([194%N] ++ rest) (pv_int per) E2)).
  destruct (Z.ltb_spec per (-2147483648)); [reflexivity|]. destruct (Z.ltb_spec 2147483647 per); [reflexivity|]. lia.
Qed.
Lemma utf8_char_len c y : utf8_char c = Ok y -> (length y <= 4)%nat.
Proof. unfold utf8_char. repeat (match goal with |- context [if ?b then _ else _] => destruct b end); intros H; try discriminate; apply Ok_inj in H; subst y; simpl; lia. Qed.
Lemma utf8_len x : forall y, utf8_encode x = Ok y -> (length y <= 4 * length x)%nat.
Proof.
  induction x as [|c x IH]; intros y H; cbn [utf8_encode] in H; [apply Ok_inj in H; subst y; simpl; lia|].
  destruct (utf8_char c) as [a|] eqn:E; [|discriminate]. cbn [rbind] in H. destruct (utf8_encode x) as [z|]; [|discriminate]. cbn [rbind] in H.
  apply Ok_inj in H. subst y. specialize (IH z eq_refl). apply utf8_char_len in E. rewrite app_length. simpl length. lia.
Qed.
Lemma unknown_codec inflate name per rest : str_fits name -> zlen name < 500000000 -> - 9223372036854775808 <= per < 18446744073709551616 ->
  name <> s "none" -> name <> s "zip" -> name <> s "zipsq" -> sr_open inflate None (header name per ++ rest) = Err NotImplementedError.
Proof.
  intros F1 L P N1 N2 N3.
  assert (E1 : exists a, pack (MStr name) = Ok a) by (apply pack_fits; constructor; exact F1).
  assert (E2 : exists b, pack (MInt per) = Ok b) by (apply pack_fits; constructor; lia).
  destruct E1 as [a E1], E2 as [b E2]. rewrite (header_packs _ _ _ _ E1 E2). rewrite <- !app_assoc.
  destruct (mu_name name a (b ++ [194%N] ++ rest) E1) as (u & U & V & _).
  assert (S : zlen u < 2147483648) by (pose proof (utf8_len _ _ U); unfold zlen in *; lia).
  unfold sr_open. rewrite payload4. cbn [rbind]. change (list_eqb N.eqb dmf1 dmf1) with true. cbn [negb]. rewrite (V S). cbn [rbind]. unfold sr_named.
  pose proof (utf8_round _ _ U) as D.
  assert (X : forall n, utf8_decode n = Ok n -> name <> n -> list_eqb N.eqb u n = false).
  { intros n Q Ne. destruct (list_eqb N.eqb u n) eqn:Z; [|reflexivity]. exfalso. apply str_eqb_eq in Z. subst u. congruence. }
  rewrite (X (s "none") eq_refl N1), (X (s "zip") eq_refl N2), (X (s "zipsq") eq_refl N3). reflexivity.
Qed.
Lemma own_codec inflate f name per rest : str_fits name -> - 9223372036854775808 <= per < 18446744073709551616 -> sr_open inflate (Some f) (header name per ++ rest) = Err TypeError.
Proof.
  intros F1 P.
  assert (E1 : exists a, pack (MStr name) = Ok a) by (apply pack_fits; constructor; exact F1).
  assert (E2 : exists b, pack (MInt per) = Ok b) by (apply pack_fits; constructor; lia).
  destruct E1 as [a E1], E2 as [b E2]. rewrite (header_packs _ _ _ _ E1 E2). rewrite <- !app_assoc.
  destruct (mu_name name a (b ++ [194%N] ++ rest) E1) as (u & _ & _ & V).
  unfold sr_open. rewrite payload4. cbn [rbind]. change (list_eqb N.eqb dmf1 dmf1) with true. cbn [negb rbind]. rewrite V. reflexivity.
Qed.

(** ** reading *)
Lemma next_full_some bs ds r : next_full bs = (Some ds, r) -> ds <> [] /\ List.concat bs = ds ++ List.concat r /\ exists pre, bs = pre ++ ds :: r.
Proof.
  induction bs as [|[|d b] bs IH]; cbn [next_full]; intros H; [discriminate| |].
  - destruct (IH H) as (A & B & pre & ->). split; [exact A|]. split; [exact B|]. exists ([] :: pre). reflexivity.
  - injection H as <- <-. split; [discriminate|]. split; [reflexivity|]. exists []. reflexivity.
Qed.
Lemma next_full_none bs r : next_full bs = (None, r) -> List.concat bs = [] /\ r = [].
Proof. induction bs as [|[|d b] bs IH]; cbn [next_full]; intros H; [injection H as <-; auto|apply IH, H|discriminate]. Qed.
Lemma jsmall_small x : jsmall x -> small x.
Proof. unfold jsmall, small. lia. Qed.
Lemma image_not_nil x rest : jsmall x -> image x ++ rest <> [].
Proof. intros S E. pose proof (image_len x (jsmall_small _ S)). apply (f_equal (@length N)) in E. rewrite app_length in E. simpl in E. lia. Qed.
Lemma block_nonempty ds : Forall jsmall ds -> ds <> [] -> block_bytes ds <> [].
Proof. intros F Ne. destruct ds as [|d ds]; [congruence|]. inversion F; subst. rewrite block_bytes_cons. apply image_not_nil. assumption. Qed.
Lemma skip_image x rest : jsmall x -> skip1 (image x ++ rest) = Ok (tt, rest).
Proof. intros S. eapply skip1_unpack1, image_next, jsmall_small, S. Qed.

Section Reading.
Context (comp : list N -> list N) (dec : list N -> res (list N)).
Hypothesis (INV : forall x, dec (comp x) = Ok x).
(** what is left of the file *)
Definition left_of (r : sreader) (rest : list (list (list N))) : Prop := sr_unp r = blocks_bytes comp rest /\ sr_codec r = dec /\ jacceptable comp rest.
Lemma advance_ok rest : forall fuel r, left_of r rest -> (length (blocks_bytes comp rest) <= fuel)%nat ->
  match next_full rest with
  | (Some ds, rest') => exists r1, sr_advance fuel r = (r1, Ok (Some (block_bytes ds))) /\ left_of r1 rest' /\ sr_block r1 = Some (block_bytes ds) /\ Forall jsmall ds /\ ds <> []
  | (None, _) => exists r1, sr_advance fuel r = (r1, Ok None) /\ left_of r1 []
  end.
Proof.
  induction rest as [|ds rest IH]; intros fuel r (U & C & A) L.
  - cbn [next_full]. exists r. split; [|split; [exact U|split; [exact C|constructor]]]. destruct fuel; cbn [sr_advance]; rewrite U; reflexivity.
  - inversion A as [|? ? [A1 A2] A3]; subst. rewrite blocks_bytes_cons in *.
    pose proof (image_len _ (jsmall_small _ A1)) as L1. rewrite app_length in L. destruct fuel as [|fuel]; [lia|]. cbn [sr_advance]. rewrite U.
    destruct (image (comp (block_bytes ds)) ++ blocks_bytes comp rest) as [|c q] eqn:E; [exfalso; apply (image_not_nil _ _ A1 E)|]. rewrite <- E.
    rewrite (mu_image _ _ A1), C, INV. cbn iota zeta.
    destruct ds as [|d ds].
    + cbn [next_full]. change (block_bytes []) with (@nil N). cbv iota.
      specialize (IH fuel (mkSR (blocks_bytes comp rest) dec (Some [])) (conj eq_refl (conj eq_refl A3)) ltac:(lia)). exact IH.
    + cbn [next_full]. assert (Ne : d :: ds <> []) by discriminate. pose proof (block_nonempty _ A2 Ne) as B. destruct (block_bytes (d :: ds)) as [|c3 q3] eqn:E3; [congruence|].
      eexists. split; [reflexivity|]. split; [split; [reflexivity|split; [reflexivity|exact A3]]|]. split; [reflexivity|]. split; [exact A2|exact Ne].
Qed.
Lemma next_block_ok rest r : left_of r rest ->
  match next_full rest with
  | (Some ds, rest') => exists r1, read_next_block r = (r1, Ok (Some (block_bytes ds))) /\ left_of r1 rest' /\ sr_block r1 = Some (block_bytes ds) /\ Forall jsmall ds /\ ds <> []
  | (None, _) => exists r1, read_next_block r = (r1, Ok None) /\ left_of r1 []
  end.
Proof. intros L. unfold read_next_block. rewrite (proj1 L). apply advance_ok; [exact L|lia]. Qed.

(** documents still to come *)
Definition at_docs (r : sreader) (docs : list (list N)) : Prop := exists cur rest, left_of r rest /\ docs = cur ++ List.concat rest /\ Forall jsmall cur /\
  sr_block r = match cur with [] => None | _ => Some (block_bytes cur) end.
Definition holding (r : sreader) (cur : list (list N)) (docs : list (list N)) : Prop := exists rest, left_of r rest /\ docs = cur ++ List.concat rest /\ Forall jsmall cur /\ cur <> [].
Lemma left_set r rest b : left_of r rest -> left_of (sr_set r b) rest.
Proof. intros (A & B & C). split; [exact A|]. split; assumption. Qed.
Lemma holding_set r cur docs b : holding r cur docs -> holding (sr_set r b) cur docs.
Proof. intros (rest & L & Q). exists rest. split; [apply left_set, L|exact Q]. Qed.
Lemma current_ok r docs : at_docs r docs ->
  match docs with
  | [] => exists r1, sr_current r = (r1, Ok None) /\ at_docs r1 []
  | _ => exists r1 cur, sr_current r = (r1, Ok (Some (block_bytes cur))) /\ holding r1 cur docs /\ sr_block r1 = Some (block_bytes cur)
  end.
Proof.
  intros (cur & rest & L & -> & S & B). unfold sr_current. rewrite B. destruct cur as [|d cur].
  - pose proof (next_block_ok rest r L) as Q. destruct (next_full rest) as [[ds|] rest'] eqn:E.
    + destruct Q as (r1 & Q1 & Q2 & Q3 & Q4 & Q5). destruct (next_full_some _ _ _ E) as (_ & D & _). cbn [app]. rewrite D. destruct ds as [|d ds]; [congruence|].
      cbn [app]. rewrite Q1. eexists _, (d :: ds). split; [reflexivity|]. split; [|reflexivity]. apply holding_set. exists rest'. split; [exact Q2|]. split; [reflexivity|]. split; [exact Q4|discriminate].
    + destruct Q as (r1 & Q1 & Q2). destruct (next_full_none _ _ E) as (D & _). cbn [app]. rewrite D, Q1. eexists. split; [reflexivity|].
      exists [], []. split; [apply left_set, Q2|]. split; [reflexivity|]. split; [constructor|reflexivity].
  - cbn [app]. exists r, (d :: cur). split; [reflexivity|]. split; [|exact B]. exists rest. split; [exact L|]. split; [reflexivity|]. split; [exact S|discriminate].
Qed.
Lemma left_ok r d cur docs : holding r (d :: cur) docs -> at_docs (sr_left r (block_bytes cur)) (tl docs).
Proof.
  intros (rest & L & -> & S & _). inversion S; subst. exists cur, rest. split; [apply left_set, L|]. split; [reflexivity|]. split; [assumption|].
  unfold sr_left. cbn [sr_set sr_block]. destruct cur as [|e cur]; [reflexivity|]. assert (Ne : e :: cur <> []) by discriminate.
  match goal with H : Forall jsmall (e :: cur) |- _ => pose proof (block_nonempty _ H Ne) as X end. destruct (block_bytes (e :: cur)); [congruence|reflexivity].
Qed.
Lemma next_raw_ok r docs : at_docs r docs -> exists r1, sr_next_raw r = (r1, Ok (hd_error docs)) /\ at_docs r1 (tl docs).
Proof.
  intros A. pose proof (current_ok r docs A) as C. unfold sr_next_raw. destruct docs as [|x docs].
  - destruct C as (r1 & C1 & C2). rewrite C1. eauto.
  - destruct C as (r1 & cur & C1 & C2 & C3). rewrite C1. pose proof C2 as (rest & L & D & S & Ne). destruct cur as [|d cur]; [congruence|]. inversion S; subst.
    rewrite block_bytes_cons, mu_image by assumption. cbn [app] in D. injection D as -> ->. eexists. split; [reflexivity|]. exact (left_ok _ _ _ _ C2).
Qed.
Lemma skip_ok r docs : at_docs r docs -> exists r1, sr_skip r = (r1, Ok (match docs with [] => false | _ => true end)) /\ at_docs r1 (tl docs).
Proof.
  intros A. pose proof (current_ok r docs A) as C. unfold sr_skip. destruct docs as [|x docs].
  - destruct C as (r1 & C1 & C2). rewrite C1. eauto.
  - destruct C as (r1 & cur & C1 & C2 & C3). rewrite C1. pose proof C2 as (rest & L & D & S & Ne). destruct cur as [|d cur]; [congruence|]. inversion S; subst.
    rewrite block_bytes_cons, skip_image by assumption. cbn [app] in D. injection D as -> ->. eexists. split; [reflexivity|]. exact (left_ok _ _ _ _ C2).
Qed.
Lemma loop_ok fuel : forall r cur docs k limit, holding r cur docs -> sr_block r = Some (block_bytes cur) -> (length docs <= fuel)%nat ->
  let m := match limit with Some n => Z.to_nat (n - k) | None => length docs end in
  exists r1, sr_loop fuel r (block_bytes cur) k limit = (r1, Ok (k + zlen (firstn m docs))) /\ at_docs r1 (skipn m docs).
Proof.
  induction fuel as [|fuel IH]; intros r cur docs k limit H B F m.
  { exfalso. destruct H as (rest & _ & -> & _ & Ne). rewrite app_length in F. destruct cur; [congruence|simpl in F; lia]. }
  pose proof H as (rest & L & D & S & Ne). destruct cur as [|d cur]; [congruence|]. inversion S as [|? ? S1 S2]; subst x l.
  cbn [sr_loop].
  assert (G : match limit with Some n => k <? n | None => true end = true /\ (exists m', m = Datatypes.S m' /\ m' = match limit with Some n => Z.to_nat (n - (k + 1)) | None => length (tl docs) end) \/
              match limit with Some n => k <? n | None => true end = false /\ m = O).
  { unfold m. destruct limit as [n|].
    - destruct (Z.ltb_spec k n); [left|right; split; [reflexivity|lia]]. split; [reflexivity|]. exists (Z.to_nat (n - (k + 1))). split; [lia|reflexivity].
    - left. split; [reflexivity|]. exists (length (tl docs)). rewrite D. split; reflexivity. }
  clearbody m. destruct G as [(G & m' & -> & M)|(G & ->)]; rewrite G.
  - rewrite block_bytes_cons, (skip_image _ _ S1). cbn iota zeta.
    assert (T : docs = d :: tl docs) by (rewrite D; reflexivity). assert (T' : tl docs = cur ++ List.concat rest) by (rewrite D; reflexivity).
    assert (F' : (length (tl docs) <= fuel)%nat) by (rewrite T in F; simpl in F; lia).
    assert (R : k + zlen (firstn (Datatypes.S m') docs) = k + 1 + zlen (firstn m' (tl docs))) by (rewrite T; cbn [firstn tl]; rewrite zlen_cons; lia).
    rewrite R. replace (skipn (Datatypes.S m') docs) with (skipn m' (tl docs)) by (rewrite T at 2; reflexivity).
    destruct cur as [|e cur].
    + change (block_bytes []) with (@nil N). cbv iota. cbn [app] in T'.
      pose proof (next_block_ok rest (sr_set r (Some [])) (left_set _ _ _ L)) as Q. destruct (next_full rest) as [[ds|] rest'] eqn:E.
      * destruct Q as (r1 & Q1 & Q2 & Q3 & Q4 & Q5). rewrite Q1. destruct (next_full_some _ _ _ E) as (_ & X & _).
        destruct (IH (sr_set r1 (Some (block_bytes ds))) ds (tl docs) (k + 1) limit) as (r2 & I1 & I2); [|reflexivity|exact F'|].
        { apply holding_set. exists rest'. rewrite T', X. auto. }
        exists r2. rewrite <- M in *. auto.
      * destruct Q as (r1 & Q1 & Q2). rewrite Q1. destruct (next_full_none _ _ E) as (X & _). rewrite T', X, firstn_nil, skipn_nil. change (zlen (@nil (list N))) with 0. rewrite Z.add_0_r.
        eexists. split; [reflexivity|]. exists [], []. split; [apply left_set, Q2|]. split; [reflexivity|]. split; [constructor|reflexivity].
    + assert (Ne' : e :: cur <> []) by discriminate. pose proof (block_nonempty _ S2 Ne') as X. destruct (block_bytes (e :: cur)) as [|c q] eqn:E; [congruence|]. rewrite <- E.
      destruct (IH (sr_set r (Some (block_bytes (e :: cur)))) (e :: cur) (tl docs) (k + 1) limit) as (r2 & I1 & I2); [|reflexivity|exact F'|].
      { apply holding_set. exists rest. rewrite T'. auto. }
      exists r2. rewrite <- M in *. auto.
  - exists r. cbn [firstn skipn]. change (zlen (@nil (list N))) with 0. rewrite Z.add_0_r. split; [reflexivity|]. exists (d :: cur), rest. auto.
Qed.
Lemma skip_many_ok fuel r docs limit : at_docs r docs -> (length docs <= fuel)%nat ->
  let m := match limit with Some n => Z.to_nat n | None => length docs end in
  exists r1, sr_skip_many fuel r limit = (r1, Ok (zlen (firstn m docs))) /\ at_docs r1 (skipn m docs).
Proof.
  intros A F m. pose proof (current_ok r docs A) as C. unfold sr_skip_many. destruct docs as [|x docs].
  - destruct C as (r1 & C1 & C2). rewrite C1. unfold m. rewrite firstn_nil, skipn_nil. eauto.
  - destruct C as (r1 & cur & C1 & C2 & C3). rewrite C1. destruct (loop_ok fuel r1 cur (x :: docs) 0 limit C2 C3 F) as (r2 & E & Q).
    cbv zeta in *. replace (match limit with Some n => Z.to_nat (n - 0) | None => length (x :: docs) end) with m in * by (unfold m; destruct limit; [f_equal; lia|reflexivity]).
    exists r2. auto.
Qed.
Lemma flat_ok fuel cs : forall r docs, at_docs r docs -> (length docs <= fuel)%nat -> Forall by_document cs -> sr_calls fuel r cs = flat_calls docs cs.
Proof.
  induction cs as [|c cs IH]; intros r docs A F G; [reflexivity|]. inversion G as [|? ? G1 G2]; subst. cbn [sr_calls flat_calls].
  assert (X : forall m, (length (skipn m docs) <= fuel)%nat) by (intros m; rewrite skipn_length; lia). assert (T : tl docs = skipn 1 docs) by (destruct docs; reflexivity).
  destruct c as [| |n| | |]; cbn [sr_call flat_step]; try (cbn in G1; contradiction).
  - destruct (next_raw_ok r docs A) as (r1 & -> & Q). f_equal. apply IH; auto. rewrite T. apply X.
  - destruct (skip_ok r docs A) as (r1 & -> & Q). f_equal. apply IH; auto. rewrite T. apply X.
  - destruct (skip_many_ok fuel r docs (Some n) A F) as (r1 & -> & Q). f_equal. apply IH; auto.
  - destruct (skip_many_ok fuel r docs None A F) as (r1 & -> & Q). rewrite firstn_all. rewrite skipn_all in Q. f_equal. apply IH; auto. simpl. lia.
Qed.
(** blocks *)
Lemma stream_ok ds : Forall jsmall ds -> forall fuel, (length (block_bytes ds) <= fuel)%nat -> sr_stream fuel (block_bytes ds) = ([], Ok ds).
Proof.
  induction 1 as [|d ds S F IH]; intros fuel L; [destruct fuel; reflexivity|]. rewrite block_bytes_cons in *. rewrite app_length in L. pose proof (image_len _ (jsmall_small _ S)).
  destruct fuel as [|fuel]; [lia|]. cbn [sr_stream]. destruct (image d ++ block_bytes ds) as [|c q] eqn:E; [exfalso; apply (image_not_nil _ _ S E)|]. rewrite <- E.
  rewrite (mu_image _ _ S), IH by lia. reflexivity.
Qed.
Lemma next_block_call rest r : left_of r rest -> exists r1, sr_next_block r = (r1, Ok (fst (next_full rest))) /\ left_of r1 (snd (next_full rest)) /\
  (fst (next_full rest) <> None -> sr_block r1 = Some []).
Proof.
  intros L. pose proof (next_block_ok rest r L) as Q. unfold sr_next_block. destruct (next_full rest) as [[ds|] rest'] eqn:E; cbn [fst snd].
  - destruct Q as (r1 & -> & Q2 & Q3 & Q4 & Q5). rewrite stream_ok by auto. cbn [rbind]. eexists. split; [reflexivity|]. split; [apply left_set, Q2|reflexivity].
  - destruct Q as (r1 & -> & Q2). destruct (next_full_none _ _ E) as (_ & ->). exists r1. split; [reflexivity|]. split; [exact Q2|congruence].
Qed.
Lemma skip_block_call rest r : left_of r rest -> exists r1, sr_skip_block r = (r1, Ok (match rest with [] => false | _ => true end)) /\ left_of r1 (tl rest).
Proof.
  intros (U & C & A). unfold sr_skip_block. rewrite U. destruct rest as [|ds rest].
  - exists r. split; [reflexivity|]. split; [exact U|split; [exact C|exact A]].
  - inversion A as [|? ? [A1 A2] A3]; subst. rewrite blocks_bytes_cons. rewrite (skip_image _ _ A1).
    destruct (image (comp (block_bytes ds)) ++ blocks_bytes comp rest) as [|c q] eqn:E; [exfalso; apply (image_not_nil _ _ A1 E)|].
    eexists. split; [reflexivity|]. split; [reflexivity|split; [exact C|exact A3]].
Qed.
Lemma blocks_ok fuel cs : forall r bs, left_of r bs -> Forall by_block cs -> sr_calls fuel r cs = block_calls bs cs.
Proof.
  induction cs as [|c cs IH]; intros r bs L G; [reflexivity|]. inversion G as [|? ? G1 G2]; subst. cbn [sr_calls block_calls].
  destruct c; cbn [sr_call block_step]; try (cbn in G1; contradiction).
  - destruct (next_block_call bs r L) as (r1 & -> & Q & _). destruct (next_full bs) as [d rest']; cbn [fst snd] in *. f_equal. apply IH; auto.
  - destruct (skip_block_call bs r L) as (r1 & -> & Q). f_equal. apply IH; auto.
Qed.
(** after nextBlock the block that was handed out is still the current one, and used up *)
Lemma mixed_calls fuel r bs ds rest : left_of r bs -> next_full bs = (Some ds, rest) ->
  sr_calls fuel r [SBlock; SNext] = [SA_docs (Ok (Some ds)); SA_doc (Err OutOfData)] /\
  sr_calls fuel r [SBlock; SSkip] = [SA_docs (Ok (Some ds)); SA_bool (Err OutOfData)] /\
  ((0 < fuel)%nat -> sr_calls fuel r [SBlock; SCount] = [SA_docs (Ok (Some ds)); SA_num (Err OutOfData)]).
Proof.
  intros L E. destruct (next_block_call bs r L) as (r1 & Q & _ & B). rewrite E in *. cbn [fst snd] in *. specialize (B ltac:(discriminate)).
  cbn [sr_calls sr_call]. rewrite Q. unfold sr_next_raw, sr_skip, sr_skip_many, sr_current. rewrite B. split; [reflexivity|]. split; [reflexivity|].
  intros F. destruct fuel as [|f]; [lia|]. reflexivity.
Qed.
End Reading.

Lemma java_reading inflate name comp per bs fuel : java_codec inflate name comp -> - 2147483648 <= per < 2147483648 -> jacceptable comp bs -> (length (List.concat bs) <= fuel)%nat ->
  exists r, sr_open inflate None (header name per ++ blocks_bytes comp bs) = Ok r /\
    (forall cs, Forall by_document cs -> sr_calls fuel r cs = flat_calls (List.concat bs) cs) /\
    (forall cs, Forall by_block cs -> sr_calls fuel r cs = block_calls bs cs).
Proof.
  intros J P A F. destruct (opens inflate name comp per (blocks_bytes comp bs) J P) as (dec & O & I). eexists. split; [exact O|].
  assert (L : left_of comp dec (mkSR (blocks_bytes comp bs) dec None) bs) by (split; [reflexivity|split; [reflexivity|exact A]]). split.
  - intros cs G. apply (flat_ok comp dec I); auto. exists [], bs. split; [exact L|]. split; [reflexivity|]. split; [constructor|reflexivity].
  - intros cs G. apply (blocks_ok comp dec I); auto.
Qed.
Lemma java_mixed inflate name comp per bs ds rest fuel : java_codec inflate name comp -> - 2147483648 <= per < 2147483648 -> jacceptable comp bs -> next_full bs = (Some ds, rest) -> (0 < fuel)%nat ->
  exists r, sr_open inflate None (header name per ++ blocks_bytes comp bs) = Ok r /\
  sr_calls fuel r [SBlock; SNext] = [SA_docs (Ok (Some ds)); SA_doc (Err OutOfData)] /\
  sr_calls fuel r [SBlock; SSkip] = [SA_docs (Ok (Some ds)); SA_bool (Err OutOfData)] /\
  sr_calls fuel r [SBlock; SCount] = [SA_docs (Ok (Some ds)); SA_num (Err OutOfData)].
Proof.
  intros J P A E F. destruct (opens inflate name comp per (blocks_bytes comp bs) J P) as (dec & O & I). eexists. split; [exact O|].
  assert (L : left_of comp dec (mkSR (blocks_bytes comp bs) dec None) bs) by (split; [reflexivity|split; [reflexivity|exact A]]).
  destruct (mixed_calls comp dec I fuel _ _ _ _ L E) as (A1 & A2 & A3). auto.
Qed.
(** files of the Python writer *)
Lemma python_file inflate c per h ops f fuel : is_file c per h ops f -> all_proper ops -> java_codec inflate (c_name c) (c_comp c) -> - 2147483648 <= per < 2147483648 ->
  Forall jsmall (written_data h ops) -> (forall pre ds post, written_data h ops = pre ++ ds ++ post -> jsmall (c_comp c (block_bytes ds))) -> (length (written_data h ops) <= fuel)%nat ->
  exists r, sr_open inflate None f = Ok r /\ forall cs, Forall by_document cs -> sr_calls fuel r cs = flat_calls (written_data h ops) cs.
Proof.
  intros I P J B S C F. destruct (file_layout _ _ _ _ _ I P) as (bss & _ & -> & D & _).
  destruct (java_reading inflate (c_name c) (c_comp c) per (List.concat bss) fuel J B) as (r & O & X & _); [|rewrite D; exact F|].
  - apply Forall_forall. intros ds In. apply in_split in In. destruct In as (pre & post & E). rewrite E, concat_app in D. cbn [List.concat] in D. split; [eapply C; symmetry; exact D|].
    rewrite <- D in S. apply Forall_app in S. destruct S as [_ S]. apply Forall_app in S. exact (proj1 S).
  - exists r. split; [exact O|]. rewrite D in X. exact X.
Qed.
(** a cut header *)
Lemma payload_ext n : extends (mu_payload n) (mu_payload n).
Proof. intros b1 b2 a r. unfold mu_payload. destruct (take n b1) as [[x y]|] eqn:E; [|discriminate]. intros H. apply Ok_inj in H. injection H as -> ->. rewrite (ext_take n b1 b2 _ _ E). reflexivity. Qed.
Lemma uint_ext n : extends (mu_uint n) (mu_uint n).
Proof. intros b1 b2 a r. unfold mu_uint. destruct (read_uint n b1) as [[x y]|] eqn:E; [|discriminate]. intros H. apply Ok_inj in H. injection H as -> ->. rewrite (ext_uint n b1 b2 _ _ E). reflexivity. Qed.
Lemma bytes_ext : extends mu_bytes mu_bytes.
Proof.
  intros b1 b2 a r. unfold mu_bytes, mu_header. destruct b1 as [|b b1]; [discriminate|]. cbn [app].
  destruct (classify b); intros H; try discriminate.
  - cbn [rbind] in *. apply payload_ext, H.
  - destruct (mu_uint k b1) as [[n q]|] eqn:E; [|discriminate]. rewrite (uint_ext _ _ b2 _ _ E). cbn [rbind] in *. destruct (2147483647 <? n); [discriminate|]. apply payload_ext, H.
  - destruct (mu_uint k b1) as [[n q]|] eqn:E; [|discriminate]. rewrite (uint_ext _ _ b2 _ _ E). cbn [rbind] in *. destruct (2147483647 <? n); [discriminate|]. apply payload_ext, H.
Qed.
Lemma int_ext : extends mu_int mu_int.
Proof.
  intros b1 b2 a r. unfold mu_int. destruct b1 as [|b b1]; [discriminate|]. cbn [app].
  assert (X : forall v q, (if (v <? -2147483648) || (2147483647 <? v) then Err OverflowError else @Ok (Z * list N) (v, q)) = Ok (a, r) ->
                        (if (v <? -2147483648) || (2147483647 <? v) then Err OverflowError else @Ok (Z * list N) (v, q ++ b2)) = Ok (a, r ++ b2)).
  { intros v q H. destruct ((v <? -2147483648) || (2147483647 <? v)); [discriminate|]. apply Ok_inj in H. injection H as -> ->. reflexivity. }
  destruct (classify b); intros H; try discriminate.
  - cbn [rbind] in *. apply X, H.
  - destruct (mu_uint k b1) as [[n q]|] eqn:E; [|discriminate]. rewrite (uint_ext _ _ b2 _ _ E). cbn [rbind] in *. apply X, H.
  - destruct (mu_uint k b1) as [[n q]|] eqn:E; [|discriminate]. rewrite (uint_ext _ _ b2 _ _ E). cbn [rbind] in *. apply X, H.
Qed.
Lemma bool_ext : extends mu_bool mu_bool.
Proof.
  intros b1 b2 a r. unfold mu_bool. destruct b1 as [|b b1]; [discriminate|]. cbn [app].
  destruct (classify b); intros H; try discriminate. apply Ok_inj in H. injection H as -> ->. reflexivity.
Qed.
Lemma java_header_cut inflate name comp per n : java_codec inflate name comp -> - 2147483648 <= per < 2147483648 -> (n < length (header name per))%nat ->
  exists e, sr_open inflate None (firstn n (header name per)) = Err e.
Proof.
  intros J P L. destruct (sr_open inflate None (firstn n (header name per))) as [r|e] eqn:E; [|eauto]. exfalso.
  destruct (opens inflate name comp per [] J P) as (dec & O & _). rewrite app_nil_r in O. rewrite <- (firstn_skipn n (header name per)) in O.
  set (f := firstn n (header name per)) in *. set (g := skipn n (header name per)) in *.
  unfold sr_open in E, O. destruct (mu_payload 4 f) as [[hd r0]|] eqn:E0; [|discriminate]. rewrite (payload_ext 4 f g _ _ E0) in O. cbn [rbind] in *.
  destruct (negb (list_eqb N.eqb hd dmf1)); [discriminate|].
  destruct (mu_bytes r0) as [[nm r1]|] eqn:E1; [|discriminate]. rewrite (bytes_ext r0 g _ _ E1) in O. cbn [rbind] in *.
  destruct (sr_named inflate nm) as [d|]; [|discriminate]. cbn [rbind] in *.
  destruct (mu_int r1) as [[v r2]|] eqn:E2; [|discriminate]. rewrite (int_ext r1 g _ _ E2) in O. cbn [rbind] in *.
  destruct (mu_bool r2) as [[v3 r3]|] eqn:E3; [|discriminate]. rewrite (bool_ext r2 g _ _ E3) in O. cbn [rbind] in *.
  destruct v3; [discriminate|]. apply Ok_inj in O. apply (f_equal sr_unp) in O. cbn [sr_unp] in O. apply app_eq_nil in O. destruct O as [_ O].
  unfold g in O. apply (f_equal (@length N)) in O. rewrite skipn_length in O. change (length (@nil N)) with 0%nat in O. lia.
Qed.
(** where the Java writer splits *)
Lemma java_splits (h : heap) ahead name comp per ops j j1 : dw_open ahead name comp per = Ok j -> dw_run j ops = (j1, Ok tt) -> writes ops = true ->
  exists bs, bs <> [] /\ List.concat bs = List.concat (map (fun o => match o with Some d => [d] | None => [] end) ops) /\
    out_bytes (dw_out j1) = header name per ++ blocks_bytes comp bs /\
    split_counts 0 (dw_out j1) = zlen (firstn ahead (header name per)) :: map (block_at (header name per) comp bs) (seq 1 (length bs - 1)).
Proof.
  intros O R T. destruct (java_file ahead name comp (fun x => Ok x) per h ops j j1 O R) as (_ & _ & _ & F & _ & G).
  destruct (G T) as (w & h1 & w1 & l & W & X & L1 & L2). destruct (F T) as (w' & h1' & w1' & W' & X' & Y). rewrite W in W'. apply Ok_inj in W'. subst w'. rewrite X in X'. injection X' as <- <-.
  destruct (writer_splits _ _ _ _ _ _ _ W X) as (bs & D & E & Q). cbn [c_name c_comp] in *. exists bs.
  assert (K : written_data h (map py_op ops) = List.concat (map (fun o => match o with Some d => [d] | None => [] end) ops)).
  { unfold written_data. clear. induction ops as [|[d|] ops IH]; cbn [map py_op written wdoc_data md_raw snd List.concat app]; [reflexivity|f_equal; exact IH|exact IH]. }
  assert (Ne : bs <> []).
  { intros ->. rewrite K in D. cbn in D. symmetry in D. clear -T D. induction ops as [|[d|] ops IH]; cbn in *; [discriminate|discriminate|auto]. }
  split; [exact Ne|]. split; [congruence|]. split; [congruence|]. rewrite L1. f_equal.
  destruct bs as [|b0 bs]; [congruence|]. change (length (b0 :: bs) - 1)%nat with (length bs - 0)%nat. rewrite Nat.sub_0_r. rewrite L2 in Q. set (B := block_at (header name per) comp (b0 :: bs)) in *.
  assert (Z : map B (seq 0 (S (length (b0 :: bs)))) = B 0%nat :: map B (seq 1 (length bs)) ++ [B (S (length bs))]).
  { change (length (b0 :: bs)) with (S (length bs)). cbn [seq map]. f_equal. change (map B (seq 1 (S (length bs))) = map B (seq 1 (length bs)) ++ [B (S (length bs))]). rewrite seq_S, map_app. reflexivity. }
  rewrite Z in Q. injection Q as _ Q. apply app_inj_tail in Q. exact (proj1 Q).
Qed.
