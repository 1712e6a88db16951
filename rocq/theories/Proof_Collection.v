From Verif Require Import PyBase PyBaseFacts Model_Heap Model_Msgpack Model_Document Model_Codec Model_Lazy Model_Collection Spec_Msgpack Spec_Collection Proof_Msgpack.
Local Open Scope Z_scope.

(** ** packed byte strings *)
Lemma image_pack x : small x -> pack (MBin x) = Ok (image x).
Proof.
  intros S. unfold image. destruct (pack (MBin x)) as [p|e] eqn:E; [reflexivity|].
  assert (F : fits (MBin x)) by (constructor; exact S). apply pack_fits in F. destruct F as [p F]. congruence.
Qed.
Lemma image_next x rest : small x -> unpack1 (image x ++ rest) = Ok (MBin x, rest).
Proof. intros S. unfold unpack1. apply bin_round. apply image_pack, S. Qed.
Lemma image_len x : small x -> (1 <= length (image x))%nat.
Proof. intros S. apply (pack_len (MBin x)). apply image_pack, S. Qed.
Lemma zlen_app {A} (a b : list A) : zlen (a ++ b) = zlen a + zlen b.
Proof. unfold zlen. rewrite app_length. lia. Qed.
Lemma zlen_cons {A} (a : A) (b : list A) : zlen (a :: b) = 1 + zlen b.
Proof. unfold zlen. simpl length. lia. Qed.
Lemma zlen_firstn_lt {A} (l : list A) k : (k < length l)%nat -> zlen (firstn k l) = Z.of_nat k.
Proof. intros H. unfold zlen. rewrite firstn_length. lia. Qed.
(** a bin object cut short is not an object *)
Lemma take_short k bs : zlen bs < k -> take k bs = Err StopIteration.
Proof. intros H. unfold take. destruct (Z.ltb_spec (zlen bs) k); [reflexivity|lia]. Qed.
Lemma bin_cut (kb : nat) tg x k : classify tg = TgBin (Z.of_nat kb) -> 0 <= zlen x < 256 ^ Z.of_nat kb ->
  (k < length (tg :: be kb (zlen x) ++ x))%nat -> unpack1 (firstn k (tg :: be kb (zlen x) ++ x)) = Err StopIteration.
Proof.
  intros C R K. destruct k as [|k]; [reflexivity|]. simpl in K. rewrite app_length, be_length in K.
  cbn [firstn]. unfold unpack1. rewrite unpack_S, C.
  destruct (Nat.lt_ge_cases k kb) as [L|L].
  - unfold read_uint. rewrite take_short; [reflexivity|]. rewrite firstn_app, be_length. replace (k - kb)%nat with O by lia. rewrite firstn_O, app_nil_r.
    rewrite zlen_firstn_lt; [lia|rewrite be_length; lia].
  - rewrite firstn_app, be_length. rewrite (firstn_all2 (be kb (zlen x))) by (rewrite be_length; lia).
    rewrite read_be by assumption. cbn [rbind]. rewrite take_short; [reflexivity|]. rewrite zlen_firstn_lt by lia. unfold zlen. lia.
Qed.
Lemma image_cut x k : small x -> (k < length (image x))%nat -> unpack1 (firstn k (image x)) = Err StopIteration.
Proof.
  intros S. pose proof (image_pack x S) as P. cbn [pack] in P. unfold bin_head in P. pose proof (zlen_nonneg x) as Z0.
  destruct (Z.ltb_spec (zlen x) (2 ^ 8)); [|destruct (Z.ltb_spec (zlen x) (2 ^ 16)); [|destruct (Z.ltb_spec (zlen x) (2 ^ 32)); [|discriminate]]];
    cbn [rbind] in P; apply Ok_inj in P; rewrite <- P, <- app_comm_cons.
  - apply (bin_cut 1); [reflexivity|]. change (256 ^ Z.of_nat 1) with (2 ^ 8). lia.
  - apply (bin_cut 2); [reflexivity|]. change (256 ^ Z.of_nat 2) with (2 ^ 16). lia.
  - apply (bin_cut 4); [reflexivity|]. change (256 ^ Z.of_nat 4) with (2 ^ 32). lia.
Qed.

(** ** unpackers *)
Lemma u_next_image x rest t : small x -> u_next (mkU (image x ++ rest) t) = (mkU rest (t + zlen (image x)), Ok (Some (MBin x))).
Proof.
  intros S. unfold u_next, u_next1. cbn [u_rest u_tell]. rewrite image_next by assumption. rewrite zlen_app.
  repeat f_equal. lia.
Qed.
Lemma u_next_stop bs t : unpack1 bs = Err StopIteration -> u_next (mkU bs t) = (mkU bs t, Ok None).
Proof. intros S. unfold u_next, u_next1. cbn [u_rest u_tell]. rewrite S. reflexivity. Qed.

Lemma blocks_bytes_app comp a b : blocks_bytes comp (a ++ b) = blocks_bytes comp a ++ blocks_bytes comp b.
Proof. unfold blocks_bytes. rewrite map_app, concat_app. reflexivity. Qed.
Lemma block_bytes_app a b : block_bytes (a ++ b) = block_bytes a ++ block_bytes b.
Proof. unfold block_bytes. rewrite map_app, concat_app. reflexivity. Qed.
Lemma block_bytes_cons d ds : block_bytes (d :: ds) = image d ++ block_bytes ds.
Proof. reflexivity. Qed.
Lemma blocks_bytes_cons comp d ds : blocks_bytes comp (d :: ds) = image (comp (block_bytes d)) ++ blocks_bytes comp ds.
Proof. reflexivity. Qed.
Lemma skipn_nth {A} (l : list A) i x : nth_error l i = Some x -> skipn i l = x :: skipn (S i) l.
Proof. revert i. induction l as [|y l IH]; intros [|i] H; simpl in *; try discriminate; [congruence|]. apply (IH i). exact H. Qed.
Lemma firstn_nth {A} (l : list A) i x : nth_error l i = Some x -> firstn (S i) l = firstn i l ++ [x].
Proof. revert i. induction l as [|y l IH]; intros [|i] H; simpl in *; try discriminate; [congruence|]. f_equal. apply IH. exact H. Qed.
Lemma doc_at_S ds j d : nth_error ds j = Some d -> doc_at ds (S j) = doc_at ds j + zlen (image d).
Proof. intros H. unfold doc_at. rewrite (firstn_nth _ _ _ H), block_bytes_app, zlen_app. unfold block_bytes at 2. cbn [map List.concat]. rewrite app_nil_r. reflexivity. Qed.
Lemma block_at_S hdr comp bs i d : nth_error bs i = Some d -> block_at hdr comp bs (S i) = block_at hdr comp bs i + zlen (image (comp (block_bytes d))).
Proof. intros H. unfold block_at. rewrite (firstn_nth _ _ _ H), blocks_bytes_app, zlen_app. unfold blocks_bytes at 2. cbn [map List.concat]. rewrite app_nil_r. lia. Qed.

(** ** the list of stored documents *)
Lemma first_of_S bs i ds : nth_error bs i = Some ds -> first_of bs (S i) = (first_of bs i + length ds)%nat.
Proof. intros H. unfold first_of. rewrite (firstn_nth _ _ _ H), concat_app, app_length. simpl. rewrite app_nil_r. reflexivity. Qed.
Lemma nth_refs f bs : forall i0 i ds j, nth_error bs i = Some ds -> (j < length ds)%nat ->
  nth_error (refs_of f i0 bs) (first_of bs i + j) = Some ((f (i0 + i)%nat, doc_at ds j), nth j ds []).
Proof.
  induction bs as [|b bs IH]; intros i0 [|i] ds j H J; simpl in H; try discriminate.
  - apply (f_equal (fun o => match o with Some x => x | None => [] end)) in H. cbn in H. subst b. cbn [refs_of]. unfold first_of. cbn [firstn List.concat length Nat.add].
    rewrite nth_error_app1 by (rewrite map_length, seq_length; lia). rewrite nth_error_map, (nth_error_nth' _ O) by (rewrite seq_length; lia).
    rewrite seq_nth by lia. cbn [option_map]. rewrite Nat.add_0_r. reflexivity.
  - cbn [refs_of]. unfold first_of. cbn [firstn List.concat]. rewrite app_length.
    rewrite nth_error_app2 by (rewrite map_length, seq_length; lia). rewrite map_length, seq_length.
    replace (length b + length (List.concat (firstn i bs)) + j - length b)%nat with (first_of bs i + j)%nat by (unfold first_of; lia).
    rewrite (IH (S i0) i ds j H J). replace (S i0 + i)%nat with (i0 + S i)%nat by lia. reflexivity.
Qed.
Lemma refs_length f bs : forall i0, length (refs_of f i0 bs) = length (List.concat bs).
Proof. induction bs as [|b bs IH]; intros i0; simpl; [reflexivity|]. rewrite !app_length, map_length, seq_length, IH. reflexivity. Qed.
Lemma refs_data f bs : forall i0, map snd (refs_of f i0 bs) = List.concat bs.
Proof.
  induction bs as [|b bs IH]; intros i0; simpl; [reflexivity|]. rewrite map_app, IH, map_map. cbn [snd]. f_equal.
  clear. induction b as [|x b IH]; [reflexivity|]. simpl. f_equal. rewrite <- seq_shift, map_map. exact IH.
Qed.
Lemma locate {A} (bs : list (list A)) : forall k, (k < length (List.concat bs))%nat ->
  exists i ds j, nth_error bs i = Some ds /\ (j < length ds)%nat /\ k = (length (List.concat (firstn i bs)) + j)%nat.
Proof.
  induction bs as [|b bs IH]; simpl; intros k K; [lia|]. rewrite app_length in K.
  destruct (Nat.lt_ge_cases k (length b)) as [L|L].
  - exists O, b, k. simpl. auto.
  - destruct (IH (k - length b)%nat) as (i & ds & j & E & J & F); [lia|]. exists (S i), ds, j. simpl. rewrite app_length. repeat split; auto. lia.
Qed.

(** ** the reader follows the list *)
Section Reader.
Context (hdr : list N) (comp : list N -> list N) (decomp : list N -> res (list N)) (bs : list (list (list N))) (tail : list N).
Hypothesis (ST : acceptable comp bs) (INV : forall x, decomp (comp x) = Ok x) (TAIL : unpack1 tail = Err StopIteration).
Local Notation B := (block_at hdr comp bs).
Local Notation docs := (stored hdr comp bs).

Record base (r : reader) (next : nat) : Prop := {
  bs_file : r_file r = hdr ++ blocks_bytes comp bs ++ tail;
  bs_codec : r_codec r = decomp;
  bs_next : (next <= length bs)%nat;
  bs_rest : u_rest (r_unp r) = blocks_bytes comp (skipn next bs) ++ tail;
  bs_tell : u_tell (r_unp r) + r_read r = B next }.
Record holds (b : block) (i : nat) (ds : list (list N)) (j : nat) : Prop := {
  ho_block : nth_error bs i = Some ds;
  ho_doc : (j <= length ds)%nat;
  ho_data : b_data b = block_bytes ds;
  ho_pos : b_pos b = B i;
  ho_rest : u_rest (b_unp b) = block_bytes (skipn j ds);
  ho_tell : block_tell b = doc_at ds j }.
(** the reader is at document k *)
Inductive at_doc (r : reader) (k : nat) : Prop :=
| at_none next : base r next -> r_block r = None -> k = first_of bs next -> at_doc r k
| at_some i ds j b : base r (S i) -> r_block r = Some b -> holds b i ds j -> r_last r = B i -> k = (first_of bs i + j)%nat -> at_doc r k.

Lemma stored_block i ds : nth_error bs i = Some ds -> small (comp (block_bytes ds)) /\ Forall (fun d => small d /\ firstn 4 d = magic) ds.
Proof. intros H. apply (proj1 (Forall_forall _ _) ST). eapply nth_error_In, H. Qed.
Lemma stored_doc i ds j d : nth_error bs i = Some ds -> nth_error ds j = Some d -> small d /\ firstn 4 d = magic.
Proof. intros H J. destruct (stored_block i ds H) as (_ & F). exact (proj1 (Forall_forall _ _) F d (nth_error_In _ _ J)). Qed.
Lemma open_fresh d ref : firstn 4 d = magic -> document_of (MBin d) ref = Ok (fresh (ref, d)).
Proof. intros M. unfold document_of. cbn [as_bytes rbind]. unfold md_open. rewrite M. reflexivity. Qed.

Lemma block_raw_some b i ds j d : holds b i ds j -> nth_error ds j = Some d ->
  exists b1, block_raw b = (b1, Ok (Some (MBin d))) /\ holds b1 i ds (S j).
Proof.
  intros [H1 H2 H3 H4 H5 H6] J. destruct (stored_doc i ds j d H1 J) as [S _]. unfold block_raw. destruct b as [dat pos rd [rest t]]. cbn [b_unp u_rest b_data b_pos b_read] in *.
  rewrite H5, (skipn_nth _ _ _ J), block_bytes_cons, (u_next_image d _ t S).
  eexists. split; [reflexivity|]. constructor; cbn [b_unp u_rest b_data b_pos b_read]; auto.
  - apply nth_error_Some. rewrite J. discriminate.
  - unfold block_tell in *. cbn [b_unp u_tell b_read] in *. rewrite (doc_at_S _ _ _ J). lia.
Qed.
Lemma block_raw_none b i ds : holds b i ds (length ds) -> block_raw b = (b, Ok None).
Proof.
  intros [H1 H2 H3 H4 H5 H6]. unfold block_raw. destruct b as [dat pos rd [rest t]]. cbn [b_unp u_rest b_data b_pos b_read] in *.
  rewrite skipn_all in H5. change (block_bytes []) with (@nil N) in H5. subst rest. rewrite u_next_stop by reflexivity. reflexivity.
Qed.
Lemma readblock_some r i ds : base r i -> nth_error bs i = Some ds ->
  exists r1, readblock r = (r1, Ok (Some (block_open (B i) (block_bytes ds)))) /\ base r1 (S i) /\ r_block r1 = r_block r /\ r_last r1 = B i.
Proof.
  intros [H1 H2 H3 H4 H5] J. destruct (stored_block i ds J) as (S & _). unfold readblock. destruct r as [f rd [rest t] cd per bl la]. cbn [r_unp u_rest u_tell r_read r_file r_codec r_block r_last r_per] in *.
  rewrite H4, (skipn_nth _ _ _ J), blocks_bytes_cons, <- app_assoc, (u_next_image _ _ t S). cbn [rbind as_bytes]. rewrite H2, INV. cbn [rbind]. rewrite H5.
  eexists. split; [reflexivity|]. split; [|auto]. constructor; cbn [r_unp u_rest u_tell r_read r_file r_codec r_block r_last r_per]; auto.
  - apply nth_error_Some. rewrite J. discriminate.
  - rewrite (block_at_S _ _ _ _ _ J). lia.
Qed.
Lemma readblock_none r : base r (length bs) -> exists r1, readblock r = (r1, Ok None) /\ base r1 (length bs) /\ r_block r1 = r_block r.
Proof.
  intros [H1 H2 H3 H4 H5]. unfold readblock. destruct r as [f rd [rest t] cd per bl la]. cbn [r_unp u_rest u_tell r_read r_file r_codec r_block r_last r_per] in *.
  rewrite skipn_all in H4. change (blocks_bytes comp []) with (@nil N) in H4. cbn [app] in H4. subst rest. rewrite u_next_stop by assumption. cbn [rbind].
  eexists. split; [reflexivity|]. split; [|auto]. constructor; cbn [r_unp u_rest u_tell r_read r_file r_codec r_block r_last r_per]; auto.
  rewrite skipn_all. reflexivity.
Qed.
Lemma holds_open i ds : nth_error bs i = Some ds -> holds (block_open (B i) (block_bytes ds)) i ds O.
Proof. intros H. constructor; cbn; auto; try reflexivity; try lia. Qed.
Lemma base_set r n b : base r n -> base (set_block r b) n.
Proof. intros [H1 H2 H3 H4 H5]. constructor; auto. Qed.
Lemma nth_stored i ds j d : nth_error bs i = Some ds -> nth_error ds j = Some d -> nth_error docs (first_of bs i + j) = Some ((B i, doc_at ds j), d).
Proof.
  intros H J. unfold stored. rewrite (nth_refs B bs 0 i ds j H) by (apply nth_error_Some; rewrite J; discriminate).
  rewrite (nth_error_nth _ _ _ J). reflexivity.
Qed.
Lemma docs_length : length docs = length (List.concat bs).
Proof. apply refs_length. Qed.
Lemma first_of_all : first_of bs (length bs) = length docs.
Proof. unfold first_of. rewrite firstn_all, docs_length. reflexivity. Qed.
Lemma nth_end : nth_error docs (first_of bs (length bs)) = None.
Proof. apply nth_error_None. rewrite first_of_all. lia. Qed.

Lemma rest_blocks r n : base r n -> (length bs - n <= length (u_rest (r_unp r)))%nat.
Proof.
  intros H. rewrite (bs_rest _ _ H), app_length. rewrite <- skipn_length. enough (G : forall l, acceptable comp l -> (length l <= length (blocks_bytes comp l))%nat).
  { specialize (G (skipn n bs)). assert (Ac : acceptable comp (skipn n bs)); [|specialize (G Ac); lia]. apply Forall_forall. intros x I. apply (proj1 (Forall_forall _ _) ST).
    rewrite <- (firstn_skipn n bs). apply in_or_app. auto. }
  clear. induction 1 as [|ds l (S & _) _ IH]; [simpl; lia|]. rewrite blocks_bytes_cons, app_length. apply image_len in S. simpl length. lia.
Qed.
Lemma search_at f : forall r n, base r n -> r_block r = None -> (length bs - n <= f)%nat ->
  match nth_error docs (first_of bs n) with
  | Some x => exists r1, next_block (S f) r = (r1, Ok (Some (fresh x))) /\ at_doc r1 (S (first_of bs n))
  | None => exists r1, next_block (S f) r = (r1, Ok None) /\ at_doc r1 (first_of bs n)
  end.
Proof.
  induction f as [|f IH]; intros r n H N Lf; cbn [next_block]; pose proof (bs_next _ _ H) as L; destruct (nth_error bs n) as [ds|] eqn:J.
  - assert (n < length bs)%nat by (apply nth_error_Some; congruence). lia.
  - apply nth_error_None in J. assert (n = length bs) by lia. subst n. rewrite nth_end.
    destruct (readblock_none r H) as (r1 & E1 & B1 & K1). rewrite E1. eexists. split; [reflexivity|].
    apply at_none with (next := length bs); [exact B1|rewrite K1; exact N|reflexivity].
  - destruct (readblock_some r n ds H J) as (r1 & E1 & B1 & K1 & L1). rewrite E1. destruct ds as [|d ds].
    + rewrite (block_raw_none _ n [] (holds_open n _ J)). pose proof (first_of_S bs n [] J) as F0. rewrite Nat.add_0_r in F0. rewrite <- F0.
      apply IH; [apply base_set, B1|reflexivity|lia].
    + pose proof (nth_stored n (d :: ds) 0 d J eq_refl) as ND. rewrite Nat.add_0_r in ND. rewrite ND.
      destruct (block_raw_some _ n (d :: ds) 0 d (holds_open n _ J) eq_refl) as (b1 & E2 & H2). rewrite E2, L1.
      destruct (stored_doc n (d :: ds) 0 d J eq_refl) as [_ M]. rewrite open_fresh by assumption. cbn [rbind].
      eexists. split; [reflexivity|]. apply at_some with (i := n) (ds := d :: ds) (j := 1%nat) (b := b1); auto using base_set; lia.
  - apply nth_error_None in J. assert (n = length bs) by lia. subst n. rewrite nth_end.
    destruct (readblock_none r H) as (r1 & E1 & B1 & K1). rewrite E1. eexists. split; [reflexivity|].
    apply at_none with (next := length bs); [exact B1|rewrite K1; exact N|reflexivity].
Qed.
Lemma next_at r k : at_doc r k ->
  match nth_error docs k with
  | Some x => exists r1, reader_next r = (r1, Ok (Some (fresh x))) /\ at_doc r1 (S k)
  | None => exists r1, reader_next r = (r1, Ok None) /\ at_doc r1 k
  end.
Proof.
  intros [next H N ->|i ds j b H N Ho La ->]; unfold reader_next; rewrite N.
  - apply search_at; auto using rest_blocks.
  - pose proof (ho_block _ _ _ _ Ho) as J. destruct (nth_error ds j) as [d|] eqn:Ej.
    + rewrite (nth_stored i ds j d J Ej). destruct (block_raw_some b i ds j d Ho Ej) as (b1 & E2 & H2). rewrite E2.
      destruct (stored_doc i ds j d J Ej) as [_ M]. rewrite open_fresh by assumption. cbn [rbind]. rewrite La, (ho_tell _ _ _ _ Ho).
      eexists. split; [reflexivity|]. apply at_some with (i := i) (ds := ds) (j := S j) (b := b1); auto using base_set; lia.
    + apply nth_error_None in Ej. pose proof (ho_doc _ _ _ _ Ho) as Hj. assert (j = length ds) by lia. subst j.
      rewrite (block_raw_none b i ds Ho). rewrite <- (first_of_S bs i ds J). apply search_at; [apply base_set, H|reflexivity|]. apply rest_blocks, base_set, H.
Qed.
Lemma seek_app (raw pre rest : list N) p : raw = pre ++ rest -> p = zlen pre -> seek raw p = Ok rest.
Proof.
  intros -> ->. unfold seek. pose proof (zlen_nonneg pre). destruct (Z.ltb_spec (zlen pre) 0); [lia|].
  unfold zlen. rewrite Nat2Z.id, skipn_app, skipn_all, Nat.sub_diag. reflexivity.
Qed.
Lemma file_split n : hdr ++ blocks_bytes comp bs ++ tail = (hdr ++ blocks_bytes comp (firstn n bs)) ++ blocks_bytes comp (skipn n bs) ++ tail.
Proof. rewrite <- (firstn_skipn n bs) at 1. rewrite blocks_bytes_app, <- !app_assoc. reflexivity. Qed.
Lemma seek_base r n m : base r n -> (m <= length bs)%nat -> exists r1, reader_seek r (B m) = (r1, Ok tt) /\ base r1 m /\ r_block r1 = None.
Proof.
  intros [H1 H2 H3 H4 H5] L. unfold reader_seek. rewrite H1, (seek_app _ _ _ (B m) (file_split m)).
  - eexists. split; [reflexivity|]. split; [|reflexivity]. constructor; cbn; auto; lia.
  - unfold block_at. rewrite zlen_app. reflexivity.
Qed.
Lemma block_at_lt i j : (i < j <= length bs)%nat -> B i < B j.
Proof.
  intros [L M]. induction j as [|j IH]; [lia|]. destruct (nth_error bs j) as [ds|] eqn:E; [|apply nth_error_None in E; lia].
  rewrite (block_at_S _ _ _ _ _ E). destruct (stored_block j ds E) as (S & _). apply image_len in S.
  assert (1 <= zlen (image (comp (block_bytes ds)))) by (unfold zlen; lia). destruct (Nat.eq_dec i j) as [->|]; [lia|]. assert (B i < B j) by (apply IH; lia). lia.
Qed.
Lemma block_at_inj i j : (i <= length bs)%nat -> (j <= length bs)%nat -> B i = B j -> i = j.
Proof.
  intros I J E. destruct (Nat.lt_trichotomy i j) as [L|[L|L]]; auto.
  - pose proof (block_at_lt i j ltac:(lia)). lia.
  - pose proof (block_at_lt j i ltac:(lia)). lia.
Qed.
Lemma block_seek_at b i ds j j' : holds b i ds j -> (j' <= length ds)%nat -> exists b1, block_seek b (doc_at ds j') = (b1, Ok tt) /\ holds b1 i ds j'.
Proof.
  intros [H1 H2 H3 H4 H5 H6] L. unfold block_seek. rewrite H3, (seek_app _ (block_bytes (firstn j' ds)) (block_bytes (skipn j' ds)) (doc_at ds j')).
  - eexists. split; [reflexivity|]. constructor; cbn; auto.
  - rewrite <- block_bytes_app, firstn_skipn. reflexivity.
  - reflexivity.
Qed.
Lemma block_next_at b i ds j d : holds b i ds j -> nth_error ds j = Some d ->
  exists b1, block_next b = (b1, Ok (Some (fresh ((B i, doc_at ds j), d)))) /\ holds b1 i ds (S j).
Proof.
  intros H J. destruct (block_raw_some b i ds j d H J) as (b1 & E & H1). unfold block_next. rewrite E.
  destruct (stored_doc i ds j d (ho_block _ _ _ _ H) J) as [_ M]. rewrite open_fresh by assumption. cbn [rbind].
  rewrite (ho_pos _ _ _ _ H1), (ho_tell _ _ _ _ H). exists b1. auto.
Qed.
Lemma get_at r k m x : at_doc r k -> nth_error docs m = Some x -> exists r1, reader_get r (fst x) = (r1, Ok (fresh x)) /\ at_doc r1 (S m).
Proof.
  intros A M. assert (Lm : (m < length (List.concat bs))%nat) by (rewrite <- docs_length; apply nth_error_Some; rewrite M; discriminate).
  destruct (locate bs m Lm) as (i & ds & j & I & J & ->). fold (first_of bs i) in M |- *.
  destruct (nth_error ds j) as [d|] eqn:D; [|apply nth_error_None in D; lia].
  rewrite (nth_stored i ds j d I D) in M. assert (X : x = ((B i, doc_at ds j), d)) by congruence. subst x. clear M. cbn [fst].
  assert (Li : (i < length bs)%nat) by (apply nth_error_Some; rewrite I; discriminate).
  assert (FIN : forall r1 b0 j0, base r1 (S i) -> holds b0 i ds j0 -> r_last r1 = B i ->
    exists r2, (match block_seek b0 (doc_at ds j) with
      | (b1, Err e) => (set_block r1 (Some b1), Err e)
      | (b1, Ok _) => let (b2, x) := block_next b1 in
                    (set_block r1 (Some b2), let* d := x in match d with Some d => Ok d | None => Err StopIteration end)
      end) = (r2, Ok (fresh ((B i, doc_at ds j), d))) /\ at_doc r2 (S (first_of bs i + j))).
  { intros r1 b0 j0 B1 H0 L1. destruct (block_seek_at b0 i ds j0 j H0 ltac:(lia)) as (b1 & E1 & H1). rewrite E1.
    destruct (block_next_at b1 i ds j d H1 D) as (b2 & E2 & H2). rewrite E2. cbn [rbind].
    eexists. split; [reflexivity|]. apply at_some with (i := i) (ds := ds) (j := S j) (b := b2); auto using base_set; lia. }
  assert (FET : forall n, base r n -> exists r2, (match reader_seek r (B i) with
    | (r1, Err e) => (r1, Err e)
    | (r1, Ok _) => match readblock r1 with
                    | (r2, Err e) => (r2, Err e)
                    | (r2, Ok None) => (set_block r2 None, Err AttributeError)
                    | (r2, Ok (Some b)) => match block_seek b (doc_at ds j) with
      | (b1, Err e) => (set_block (set_block r2 (Some b)) (Some b1), Err e)
      | (b1, Ok _) => let (b2, x) := block_next b1 in
                    (set_block (set_block r2 (Some b)) (Some b2), let* d := x in match d with Some d => Ok d | None => Err StopIteration end)
      end
                    end
    end) = (r2, Ok (fresh ((B i, doc_at ds j), d))) /\ at_doc r2 (S (first_of bs i + j))).
  { intros n Bn. destruct (seek_base r n i Bn ltac:(lia)) as (r1 & E1 & B1 & N1). rewrite E1.
    destruct (readblock_some r1 i ds B1 I) as (r2 & E2 & B2 & K2 & L2). rewrite E2.
    apply (FIN (set_block r2 (Some (block_open (B i) (block_bytes ds)))) _ O); [apply base_set, B2|apply holds_open, I|exact L2]. }
  unfold reader_get. cbn [fst snd]. destruct A as [next H N E|i' ds' j' b H N Ho La E]; rewrite N.
  - apply (FET next H).
  - rewrite (ho_pos _ _ _ _ Ho). destruct (Z.eqb_spec (B i') (B i)) as [Q|Q]; [|apply (FET _ H)].
    apply block_at_inj in Q; [|pose proof (bs_next _ _ H); lia|lia]. subst i'. pose proof (ho_block _ _ _ _ Ho) as I2. assert (ds' = ds) by congruence. subst ds'.
    apply (FIN r b j' H Ho La).
Qed.
Lemma seek_at_doc r k i : at_doc r k -> (i <= length bs)%nat -> exists r1, reader_seek r (B i) = (r1, Ok tt) /\ at_doc r1 (first_of bs i).
Proof.
  intros A L. assert (exists n, base r n) as [n Bn] by (destruct A; eauto). destruct (seek_base r n i Bn L) as (r1 & E & B1 & N1).
  exists r1. split; [exact E|]. apply at_none with (next := i); auto.
Qed.

(** any sequence of calls *)
Lemma rcalls_at cs : forall r k, at_doc r k -> Forall (inside docs bs) cs -> rcalls r (map (concrete docs B) cs) = sanswers docs bs k cs.
Proof.
  induction cs as [|c cs IH]; intros r k A F; [reflexivity|]. apply Forall_cons_iff in F. destruct F as [Fc F]. cbn [map rcalls sanswers]. destruct c as [|m|i]; cbn [concrete rstep sanswer].
  - pose proof (next_at r k A) as NX. destruct (nth_error docs k) as [x|]; destruct NX as (r1 & E & A1); rewrite E; f_equal; apply IH; auto.
  - cbn [inside] in Fc. destruct (nth_error docs m) as [x|] eqn:M; [|apply nth_error_None in M; lia].
    destruct (get_at r k m x A M) as (r1 & E & A1). rewrite E. cbn [rmap]. f_equal. apply IH; auto.
  - cbn [inside] in Fc. destruct (seek_at_doc r k i A Fc) as (r1 & E & A1). rewrite E. f_equal. apply IH; auto.
Qed.
(** iterating to the end *)
Lemma iter_at n : forall r k f, at_doc r k -> (length docs - k = n)%nat -> (n < f)%nat -> (k <= length docs)%nat ->
  exists r1, reader_iter f r = (r1, Ok (map fresh (skipn k docs))) /\ at_doc r1 (length docs).
Proof.
  induction n as [|n IH]; intros r k f A E L K; (destruct f as [|f]; [lia|]); cbn [reader_iter]; pose proof (next_at r k A) as NX.
  - assert (k = length docs) by lia. subst k. rewrite (proj2 (nth_error_None docs (length docs)) (le_n _)) in NX. destruct NX as (r1 & E1 & A1). rewrite E1, skipn_all. exists r1. auto.
  - destruct (nth_error docs k) as [x|] eqn:X; [|apply nth_error_None in X; lia]. destruct NX as (r1 & E1 & A1). rewrite E1.
    destruct (IH r1 (S k) f A1 ltac:(lia) ltac:(lia) ltac:(lia)) as (r2 & E2 & A2). rewrite E2. cbn [rbind]. rewrite (skipn_nth _ _ _ X). exists r2. auto.
Qed.
End Reader.
