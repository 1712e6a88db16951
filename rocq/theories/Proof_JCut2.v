(** Document files that end too early, and the Java port. *)
From Verif Require Import PyBase PyBaseFacts Model_Msgpack Model_Lazy Model_Collection Model_JStream Model_JCodec Spec_Msgpack Spec_Cut Spec_Collection Spec_JStream 
  Proof_Msgpack Proof_Cut Proof_Collection Proof_Collection2 Proof_JStream Proof_JStream2 Proof_JCut.
Local Open Scope Z_scope.

Lemma st_bytes : steady mu_bytes.
Proof. unfold mu_bytes. apply steady_bind; [apply st_header|]. intros n. apply st_payload. Qed.
(** sr_open with the bytes left *)
Definition open_body (inflate : list N -> res (list N)) (file : list N) : res ((list N -> res (list N)) * list N) :=
  let* (hd, r0) := mu_payload 4 file in
  (if negb (list_eqb N.eqb hd dmf1) then fun _ => Err IOError else fun r0 =>
  let* (name, r1) := mu_bytes r0 in let* f := sr_named inflate name in
  let* (_, r2) := mu_int r1 in
  let* (advanced, r3) := mu_bool r2 in
  (if advanced : bool then fun _ => Err NotImplementedError else fun r3 => Ok (f, r3)) r3) r0.
Lemma open_body_of inflate file : sr_open inflate None file = let* (f, r) := open_body inflate file in Ok (mkSR r f None).
Proof.
  unfold sr_open, open_body. destruct (mu_payload 4 file) as [[hd r0]|]; [|reflexivity]. cbn [rbind]. destruct (list_eqb N.eqb hd dmf1); cbn [negb]; [|reflexivity].
  destruct (mu_bytes r0) as [[name r1]|]; [|reflexivity]. cbn [rbind]. destruct (sr_named inflate name); [|reflexivity]. cbn [rbind].
  destruct (mu_int r1) as [[? r2]|]; [|reflexivity]. cbn [rbind]. destruct (mu_bool r2) as [[[] r3]|]; reflexivity.
Qed.
Lemma st_open inflate : steady (open_body inflate).
Proof.
  unfold open_body. apply steady_bind; [apply st_payload|]. intros hd. destruct (negb (list_eqb N.eqb hd dmf1)); [apply steady_err|].
  apply steady_bind; [apply st_bytes|]. intros name.
  apply (steady_pure (sr_named inflate name) (fun f r1 => let* (_, r2) := mu_int r1 in let* (advanced, r3) := mu_bool r2 in (if advanced : bool then fun _ => Err NotImplementedError else fun r3 => Ok (f, r3)) r3)).
  intros f. apply steady_bind; [apply st_int|]. intros _. apply steady_bind; [apply st_bool|]. intros []; [apply steady_err|apply steady_ret].
Qed.
(** a reader that takes exactly p runs out of data on less *)
Lemma steady_short {A} (F : list N -> res (A * list N)) p r a b1 b2 : steady F -> F (p ++ r) = Ok (a, r) -> p = b1 ++ b2 -> b2 <> [] -> F b1 = Err OutOfData.
Proof.
  intros SF H -> N2. rewrite <- app_assoc in H. destruct (proj1 SF b1 (b2 ++ r) a r H) as [(r2 & q2 & E2 & _)|(b3 & _ & _ & E2)]; [|exact E2].
  exfalso. apply (f_equal (@length N)) in E2. rewrite !app_length in E2. destruct b2; [congruence|cbn in E2; lia].
Qed.
Lemma header_short inflate name comp per b1 b2 : java_codec inflate name comp -> - 2147483648 <= per < 2147483648 -> header name per = b1 ++ b2 -> b2 <> [] -> sr_open inflate None b1 = Err OutOfData.
Proof.
  intros J P E N2. destruct (opens inflate name comp per [] J P) as (dec & O & _). rewrite open_body_of in O. rewrite open_body_of.
  destruct (open_body inflate (header name per ++ [])) as [[f r]|] eqn:B; [|discriminate]. cbn [rbind] in O. apply Ok_inj in O. injection O as -> ->.
  rewrite (steady_short _ _ _ _ _ _ (st_open inflate) B E N2). reflexivity.
Qed.
Lemma image_short x p q : jsmall x -> image x = p ++ q -> q <> [] -> mu_bytes p = Err OutOfData.
Proof. intros S E N2. pose proof (mu_image x [] S) as H. exact (steady_short _ _ _ _ _ _ st_bytes H E N2). Qed.

Lemma split_blocks comp bs : forall x g, blocks_bytes comp bs = x ++ g -> exists bs1 bs2 p, bs = bs1 ++ bs2 /\ x = blocks_bytes comp bs1 ++ p /\
  (p = [] \/ exists ds bs3 q, bs2 = ds :: bs3 /\ image (comp (block_bytes ds)) = p ++ q /\ p <> [] /\ q <> []).
Proof.
  induction bs as [|ds bs IH]; intros x g E.
  - symmetry in E. apply app_eq_nil in E. destruct E as [-> _]. exists [], [], []. split; [reflexivity|]. split; [reflexivity|]. left. reflexivity.
  - rewrite blocks_bytes_cons in E. destruct (app_eq_app _ _ _ _ E) as (l & [(E1 & E2)|(E1 & E2)]).
    + destruct x as [|c x]; [exists [], (ds :: bs), []; split; [reflexivity|]; split; [reflexivity|]; left; reflexivity|].
      destruct l as [|d l].
      * rewrite app_nil_r in E1. exists [ds], bs, []. split; [reflexivity|]. split; [|left; reflexivity]. rewrite blocks_bytes_cons, E1. unfold blocks_bytes. cbn [map List.concat]. rewrite !app_nil_r. reflexivity.
      * exists [], (ds :: bs), (c :: x). split; [reflexivity|]. split; [reflexivity|]. right. exists ds, bs, (d :: l). split; [reflexivity|]. split; [exact E1|]. split; discriminate.
    + destruct (IH l g E2) as (bs1 & bs2 & p & -> & -> & Q). exists (ds :: bs1), bs2, p. split; [reflexivity|]. split; [|exact Q]. rewrite blocks_bytes_cons, E1, app_assoc. reflexivity.
Qed.

Section Torn.
Context (comp : list N -> list N) (dec : list N -> res (list N)) (p : list N).
Hypothesis (INV : forall x, dec (comp x) = Ok x).
Hypothesis (TORN : mu_bytes p = Err OutOfData).
Hypothesis (SOME : p <> []).
(** the reader stands before these documents, and then p *)
Definition before (r : sreader) (docs : list (list N)) : Prop := exists cur rest, sr_unp r = blocks_bytes comp rest ++ p /\ sr_codec r = dec /\ jacceptable comp rest /\
  docs = cur ++ List.concat rest /\ Forall jsmall cur /\ (sr_block r = match cur with [] => None | _ => Some (block_bytes cur) end \/ cur = [] /\ rest = [] /\ sr_block r = Some []).
Lemma torn_advance rest : forall fuel r, sr_unp r = blocks_bytes comp rest ++ p -> sr_codec r = dec -> jacceptable comp rest -> (length (blocks_bytes comp rest ++ p) <= fuel)%nat ->
  match next_full rest with
  | (Some ds, rest') => exists r1, sr_advance fuel r = (r1, Ok (Some (block_bytes ds))) /\ sr_unp r1 = blocks_bytes comp rest' ++ p /\ sr_codec r1 = dec /\ jacceptable comp rest' /\ Forall jsmall ds /\ ds <> []
  | (None, _) => exists r1, sr_advance fuel r = (r1, Err OutOfData) /\ sr_unp r1 = p /\ sr_codec r1 = dec /\ (sr_block r1 = sr_block r \/ sr_block r1 = Some [])
  end.
Proof.
  induction rest as [|ds rest IH]; intros fuel r U C A L.
  - cbn [next_full]. exists r. split; [|split; [exact U|split; [exact C|left; reflexivity]]]. change (blocks_bytes comp [] ++ p) with p in *.
    destruct fuel; cbn [sr_advance]; rewrite U; [destruct p; [congruence|cbn in L; lia]|]. rewrite TORN. destruct p; [congruence|reflexivity].
  - inversion A as [|? ? [A1 A2] A3]; subst. rewrite blocks_bytes_cons, <- app_assoc in *.
    pose proof (image_len _ (jsmall_small _ A1)) as L1. rewrite app_length in L. destruct fuel as [|fuel]; [lia|]. cbn [sr_advance]. rewrite U.
    destruct (image (comp (block_bytes ds)) ++ blocks_bytes comp rest ++ p) as [|c q] eqn:E; [exfalso; apply (image_not_nil _ _ A1 E)|]. rewrite <- E.
    rewrite (mu_image _ _ A1), INV. cbn iota zeta.
    destruct ds as [|d ds].
    + cbn [next_full]. change (block_bytes []) with (@nil N). cbv iota.
      specialize (IH fuel (mkSR (blocks_bytes comp rest ++ p) (sr_codec r) (Some [])) eq_refl eq_refl A3 ltac:(lia)).
      destruct (next_full rest) as [[ds|] rest']; [exact IH|]. destruct IH as (r1 & B1 & B2 & B3 & B4). exists r1. split; [exact B1|]. split; [exact B2|]. split; [exact B3|]. right. destruct B4 as [B4|B4]; exact B4.
    + cbn [next_full]. assert (Ne : d :: ds <> []) by discriminate. pose proof (block_nonempty _ A2 Ne) as B. destruct (block_bytes (d :: ds)) as [|c3 q3] eqn:E3; [congruence|].
      eexists. split; [reflexivity|]. split; [reflexivity|]. split; [reflexivity|]. split; [exact A3|]. split; [exact A2|exact Ne].
Qed.
Lemma torn_next r docs : before r docs -> exists r1, sr_next_raw r = (r1, match docs with [] => Err OutOfData | d :: _ => Ok (Some d) end) /\ before r1 (tl docs).
Proof.
  intros (cur & rest & U & C & A & -> & S & [B|(-> & -> & B)]).
  - unfold sr_next_raw, sr_current. rewrite B. destruct cur as [|d cur].
    + unfold read_next_block. pose proof (torn_advance rest (length (sr_unp r)) r U C A) as Q. rewrite U in *. specialize (Q (le_n _)).
      destruct (next_full rest) as [[ds|] rest'] eqn:E.
      * destruct Q as (r1 & Q1 & Q2 & Q3 & Q4 & Q5 & Q6). destruct (next_full_some _ _ _ E) as (_ & D & _). cbn [app]. rewrite D. destruct ds as [|d ds]; [congruence|].
        inversion Q5; subst. rewrite Q1, block_bytes_cons, mu_image by assumption. eexists. split; [reflexivity|]. cbn [app tl]. exists ds, rest'. unfold sr_left, sr_set. cbn [sr_unp sr_codec sr_block].
        split; [exact Q2|]. split; [exact Q3|]. split; [exact Q4|]. split; [reflexivity|]. split; [assumption|]. left. destruct ds as [|e ds]; [reflexivity|].
        assert (Ne : e :: ds <> []) by discriminate. match goal with H : Forall jsmall (e :: ds) |- _ => pose proof (block_nonempty _ H Ne) as X end. destruct (block_bytes (e :: ds)); [congruence|reflexivity].
      * destruct Q as (r1 & Q1 & Q2 & Q3 & Q4). destruct (next_full_none _ _ E) as (D & _). cbn [app]. rewrite D, Q1. eexists. split; [reflexivity|].
        exists [], []. split; [exact Q2|]. split; [exact Q3|]. split; [constructor|]. split; [reflexivity|]. split; [constructor|].
        destruct Q4 as [Q4|Q4]; [left; rewrite Q4; exact B|right; auto].
    + inversion S; subst. rewrite block_bytes_cons, mu_image by assumption. eexists. split; [reflexivity|]. cbn [app tl]. exists cur, rest. unfold sr_left, sr_set. cbn [sr_unp sr_codec sr_block].
      split; [exact U|]. split; [exact C|]. split; [exact A|]. split; [reflexivity|]. split; [assumption|]. left. destruct cur as [|e cur]; [reflexivity|].
      assert (Ne : e :: cur <> []) by discriminate. match goal with H : Forall jsmall (e :: cur) |- _ => pose proof (block_nonempty _ H Ne) as X end. destruct (block_bytes (e :: cur)); [congruence|reflexivity].
  - unfold sr_next_raw, sr_current. rewrite B. exists r. split; [reflexivity|]. exists [], []. split; [exact U|]. split; [exact C|]. split; [exact A|]. split; [reflexivity|]. split; [exact S|]. right. auto.
Qed.
Lemma torn_calls fuel k docs : forall r, before r docs -> sr_calls fuel r (repeat SNext (length docs + k)) = map (fun d => SA_doc (Ok (Some d))) docs ++ repeat (SA_doc (Err OutOfData)) k.
Proof.
  induction docs as [|d docs IH]; intros r B.
  - cbn [length plus map app]. revert r B. induction k as [|k IH]; intros r B; [reflexivity|]. cbn [repeat sr_calls sr_call]. destruct (torn_next _ _ B) as (r1 & -> & B1). rewrite (IH r1 B1). reflexivity.
  - cbn [length plus repeat sr_calls sr_call map app]. destruct (torn_next _ _ B) as (r1 & -> & B1). rewrite (IH r1 B1). reflexivity.
Qed.
End Torn.
Lemma whole_calls fuel k docs : flat_calls docs (repeat SNext (length docs + k)) = map (fun d => SA_doc (Ok (Some d))) docs ++ repeat (SA_doc (Ok None)) k /\ Forall by_document (repeat SNext fuel).
Proof.
  split.
  - induction docs as [|d docs IH]; [|cbn; rewrite IH; reflexivity]. induction k as [|k IH]; [reflexivity|]. cbn. cbn in IH. rewrite IH. reflexivity.
  - induction fuel as [|fuel IH]; constructor; [exact I|exact IH].
Qed.

Theorem java_cut_file inflate name comp per bs f g : java_codec inflate name comp -> - 2147483648 <= per < 2147483648 -> jacceptable comp bs -> header name per ++ blocks_bytes comp bs = f ++ g ->
  ((length f < length (header name per))%nat -> sr_open inflate None f = Err OutOfData) /\
  ((length (header name per) <= length f)%nat -> exists r bs1 bs2, sr_open inflate None f = Ok r /\ bs = bs1 ++ bs2 /\
    forall fuel k, (length (List.concat bs) <= fuel)%nat -> sr_calls fuel r (repeat SNext (length (List.concat bs1) + k)) =
      map (fun d => SA_doc (Ok (Some d))) (List.concat bs1) ++
      repeat (SA_doc (if Nat.eqb (length f) (length (header name per ++ blocks_bytes comp bs1)) then Ok None else Err OutOfData)) k).
Proof.
  intros J P A E. split; intros L.
  - destruct (app_eq_app _ _ _ _ E) as (l & [(E1 & E2)|(E1 & E2)]).
    + apply (header_short inflate name comp per f l J P E1). intros ->. rewrite app_nil_r in E1. rewrite E1 in L. lia.
    + rewrite E1, app_length in L. lia.
  - assert (exists x, f = header name per ++ x /\ blocks_bytes comp bs = x ++ g) as (x & -> & E1).
    { destruct (app_eq_app _ _ _ _ E) as (l & [(E1 & E2)|(E1 & E2)]).
      - rewrite E1, app_length in L. destruct l; [|cbn in L; lia]. rewrite app_nil_r in E1. exists []. rewrite app_nil_r. auto.
      - exists l. auto. }
    destruct (split_blocks comp bs x g E1) as (bs1 & bs2 & p & -> & -> & Q). destruct (opens inflate name comp per (blocks_bytes comp bs1 ++ p) J P) as (dec & O & INV).
    apply Forall_app in A. destruct A as [A1 A2].
    eexists _, bs1, bs2. split; [exact O|]. split; [reflexivity|]. intros fuel k F. destruct Q as [->|(ds & bs3 & q & -> & I1 & N1 & N2)].
    + rewrite app_nil_r in *. rewrite Nat.eqb_refl. destruct (java_reading inflate name comp per bs1 fuel J P A1) as (r & O2 & X & _).
      { rewrite concat_app, app_length in F. lia. }
      rewrite O in O2. apply Ok_inj in O2. subst r. rewrite X by apply (whole_calls _ k (List.concat bs1)). apply (whole_calls fuel).
    + destruct (Nat.eqb_spec (length (header name per ++ blocks_bytes comp bs1 ++ p)) (length (header name per ++ blocks_bytes comp bs1))) as [E3|_].
      { rewrite !app_length in E3. destruct p; [congruence|cbn in E3; lia]. }
      inversion A2 as [|? ? [A3 A4] A5]; subst. apply (torn_calls comp dec p INV (image_short _ _ _ A3 I1 N2) N1 fuel k (List.concat bs1)).
      exists [], bs1. cbn [sr_unp sr_codec sr_block app]. split; [reflexivity|]. split; [reflexivity|]. split; [exact A1|]. split; [reflexivity|]. split; [constructor|]. left. reflexivity.
Qed.
