(** Cut and extended input: MessagePack values and documents. *)
From Verif Require Import PyBase PyBaseFacts Model_Text Model_Heap Model_Layer Model_Types Model_Msgpack Model_Document Model_Codec
  Spec_Msgpack Proof_Msgpack Spec_Cut.
Local Open Scope Z_scope.

(** ** composition *)
Lemma cut_eats {A} m (F F' : list N -> res (A * list N)) bs a r : cut (S m) F F' -> F bs = Ok (a, r) -> exists p, bs = p ++ r.
Proof.
  intros C H. destruct (C [] bs a r ltac:(simpl; lia) H) as [(r1 & -> & _ & p & Ep)|(b3 & e & _ & -> & _)].
  - destruct p; [|discriminate]. destruct r1; [|discriminate]. exists []. reflexivity.
  - exists b3. reflexivity.
Qed.
Lemma cut_ret {A} m (a : A) : cut m (fun bs => Ok (a, bs)) (fun bs => Ok (a, bs)).
Proof. intros b1 b2 x r L [= <- <-]. left. exists b1. repeat split. exists []. reflexivity. Qed.
Lemma cut_err {A} m e : cut m (fun _ => @Err (A * list N) e) (fun _ => Err e).
Proof. intros b1 b2 x r L H. discriminate. Qed.
Lemma cut_bind {A B} m (F F' : list N -> res (A * list N)) (G G' : A -> list N -> res (B * list N)) : cut m F F' -> (forall a, cut m (G a) (G' a)) ->
  cut m (fun bs => let* (a, r) := F bs in G a r) (fun bs => let* (a, r) := F' bs in G' a r).
Proof.
  intros HF HG b1 b2 c r L H. destruct m as [|m]; [lia|]. destruct (F (b1 ++ b2)) as [[a r0]|] eqn:E; [|discriminate]. cbn [rbind] in H.
  destruct (HF b1 b2 a r0 L E) as [(r1 & -> & E' & p & Ep)|(b3 & e & N3 & -> & W & E')]; rewrite E'; cbn [rbind].
  - assert (L1 : (length r1 < S m)%nat) by (rewrite Ep, app_length in L; lia).
    destruct (HG a r1 b2 c r L1 H) as [(r2 & -> & E2 & q & Eq)|(b3 & e & N3 & -> & W & E2)].
    + left. exists r2. repeat split; auto. exists (p ++ q). rewrite <- app_assoc, <- Eq. assumption.
    + right. exists b3, e. auto.
  - right. destruct (cut_eats _ _ _ _ _ _ (HG a) H) as [q ->]. exists (b3 ++ q), e. rewrite app_assoc. repeat split; auto. destruct b3; [congruence|discriminate].
Qed.
Lemma cut_pure {A B} m (x : res B) (G G' : B -> list N -> res (A * list N)) : (forall b, cut m (G b) (G' b)) ->
  cut m (fun bs => let* b := x in G b bs) (fun bs => let* b := x in G' b bs).
Proof. intros HG. destruct x as [b|e]; cbn [rbind]; [apply HG|apply cut_err]. Qed.
Lemma cut_if {A} m (c : bool) (F F' G G' : list N -> res (A * list N)) : cut m F F' -> cut m G G' ->
  cut m (fun bs => if c then F bs else G bs) (fun bs => if c then F' bs else G' bs).
Proof. destruct c; auto. Qed.
Lemma ext_ret {A} (a : A) : extends (fun bs => Ok (a, bs)) (fun bs => Ok (a, bs)).
Proof. intros b1 b2 x r [= <- <-]. reflexivity. Qed.
Lemma ext_err {A} e : extends (fun _ => @Err (A * list N) e) (fun _ => Err e).
Proof. intros b1 b2 x r H. discriminate. Qed.
Lemma ext_bind {A B} (F F' : list N -> res (A * list N)) (G G' : A -> list N -> res (B * list N)) : extends F F' -> (forall a, extends (G a) (G' a)) ->
  extends (fun bs => let* (a, r) := F bs in G a r) (fun bs => let* (a, r) := F' bs in G' a r).
Proof.
  intros HF HG b1 b2 c r H. destruct (F b1) as [[a r0]|] eqn:E; [|discriminate]. cbn [rbind] in H. rewrite (HF _ b2 _ _ E). cbn [rbind]. apply HG. assumption.
Qed.
Lemma ext_pure {A B} (x : res B) (G G' : B -> list N -> res (A * list N)) : (forall b, extends (G b) (G' b)) ->
  extends (fun bs => let* b := x in G b bs) (fun bs => let* b := x in G' b bs).
Proof. intros HG. destruct x as [b|e]; cbn [rbind]; [apply HG|apply ext_err]. Qed.
Lemma ext_if {A} (c : bool) (F F' G G' : list N -> res (A * list N)) : extends F F' -> extends G G' ->
  extends (fun bs => if c then F bs else G bs) (fun bs => if c then F' bs else G' bs).
Proof. destruct c; auto. Qed.

(** ** values *)
Lemma zlen_app' {A} (a b : list A) : zlen (a ++ b) = zlen a + zlen b.
Proof. unfold zlen. rewrite app_length. lia. Qed.
Lemma cut_take m k : cut m (take k) (take k).
Proof.
  intros b1 b2 a r L. unfold take. rewrite zlen_app'. pose proof (zlen_nonneg b1). pose proof (zlen_nonneg b2). destruct (Z.ltb_spec (zlen b1 + zlen b2) k) as [|Hk]; [discriminate|]. intros E.
  destruct (Z.ltb_spec (zlen b1) k) as [Hs|Hs].
  - right. apply Ok_inj in E. injection E as _ <-. unfold zlen in *.
    exists (firstn (Z.to_nat k - length b1) b2), StopIteration. rewrite skipn_app. rewrite (skipn_all2 b1) by lia. cbn [app]. rewrite firstn_skipn.
    repeat split; [|left; reflexivity]. intros En. apply (f_equal (@length N)) in En. rewrite firstn_length in En. simpl in En. lia.
  - left. apply Ok_inj in E. injection E as <- <-. unfold zlen in *. exists (skipn (Z.to_nat k) b1). rewrite skipn_app, firstn_app.
    replace (Z.to_nat k - length b1)%nat with 0%nat by lia. cbn [skipn firstn]. rewrite app_nil_r. repeat split. exists (firstn (Z.to_nat k) b1). rewrite firstn_skipn. reflexivity.
Qed.
Lemma ext_take k : extends (take k) (take k).
Proof.
  intros b1 b2 a r. unfold take. rewrite zlen_app'. pose proof (zlen_nonneg b2). destruct (Z.ltb_spec (zlen b1) k) as [|Hk]; [discriminate|]. intros E. apply Ok_inj in E. injection E as <- <-.
  destruct (Z.ltb_spec (zlen b1 + zlen b2) k); [lia|]. unfold zlen in *. rewrite skipn_app, firstn_app. replace (Z.to_nat k - length b1)%nat with 0%nat by lia.
  cbn [skipn firstn]. rewrite app_nil_r. reflexivity.
Qed.
Lemma cut_uint m k : cut m (read_uint k) (read_uint k).
Proof. exact (cut_bind m _ _ (fun x r => Ok (unbe x, r)) (fun x r => Ok (unbe x, r)) (cut_take m k) (fun a => cut_ret m _)). Qed.
Lemma ext_uint k : extends (read_uint k) (read_uint k).
Proof. exact (ext_bind _ _ (fun x r => Ok (unbe x, r)) (fun x r => Ok (unbe x, r)) (ext_take k) (fun a => ext_ret _)). Qed.
Lemma cut_str m n : cut m (unpack_str n) (unpack_str n).
Proof. apply (cut_bind m _ _ (fun x r => let* y := utf8_decode x in Ok (MStr y, r)) (fun x r => let* y := utf8_decode x in Ok (MStr y, r)) (cut_take m n)). intros a. apply cut_pure. intros b. apply cut_ret. Qed.
Lemma ext_str n : extends (unpack_str n) (unpack_str n).
Proof. apply (ext_bind _ _ (fun x r => let* y := utf8_decode x in Ok (MStr y, r)) (fun x r => let* y := utf8_decode x in Ok (MStr y, r)) (ext_take n)). intros a. apply ext_pure. intros b. apply ext_ret. Qed.
Lemma cut_list m u u' : cut m u u' -> forall n, cut m (unpack_list u n) (unpack_list u' n).
Proof.
  intros C. induction n as [|n IH]; [apply cut_ret|].
  apply (cut_bind m _ _ (fun o r => let* (os, r') := unpack_list u n r in Ok (o :: os, r')) (fun o r => let* (os, r') := unpack_list u' n r in Ok (o :: os, r')) C). intros o.
  apply (cut_bind m _ _ (fun os r => Ok (o :: os, r)) (fun os r => Ok (o :: os, r)) IH). intros os. apply cut_ret.
Qed.
Lemma ext_list u u' : extends u u' -> forall n, extends (unpack_list u n) (unpack_list u' n).
Proof.
  intros C. induction n as [|n IH]; [apply ext_ret|].
  apply (ext_bind _ _ (fun o r => let* (os, r') := unpack_list u n r in Ok (o :: os, r')) (fun o r => let* (os, r') := unpack_list u' n r in Ok (o :: os, r')) C). intros o.
  apply (ext_bind _ _ (fun os r => Ok (o :: os, r)) (fun os r => Ok (o :: os, r)) IH). intros os. apply ext_ret.
Qed.
Lemma cut_map m u u' : cut m u u' -> forall n acc, cut m (unpack_map u n acc) (unpack_map u' n acc).
Proof.
  intros C. induction n as [|n IH]; intros acc; [apply cut_ret|]. cbn [unpack_map].
  apply (cut_bind m _ _ (fun k r => match k with MStr x => let* (v, r') := u r in unpack_map u n (dset acc x v) r' | MBin _ => Err Unmodelled | _ => Err ValueError end)
    (fun k r => match k with MStr x => let* (v, r') := u' r in unpack_map u' n (dset acc x v) r' | MBin _ => Err Unmodelled | _ => Err ValueError end) C).
  intros k. destruct k; try apply cut_err. apply (cut_bind m _ _ (fun v r' => unpack_map u n (dset acc x v) r') (fun v r' => unpack_map u' n (dset acc x v) r') C). intros v. apply IH.
Qed.
Lemma ext_map u u' : extends u u' -> forall n acc, extends (unpack_map u n acc) (unpack_map u' n acc).
Proof.
  intros C. induction n as [|n IH]; intros acc; [apply ext_ret|]. cbn [unpack_map].
  apply (ext_bind _ _ (fun k r => match k with MStr x => let* (v, r') := u r in unpack_map u n (dset acc x v) r' | MBin _ => Err Unmodelled | _ => Err ValueError end)
    (fun k r => match k with MStr x => let* (v, r') := u' r in unpack_map u' n (dset acc x v) r' | MBin _ => Err Unmodelled | _ => Err ValueError end) C).
  intros k. destruct k; try apply ext_err. apply (ext_bind _ _ (fun v r' => unpack_map u n (dset acc x v) r') (fun v r' => unpack_map u' n (dset acc x v) r') C). intros v. apply IH.
Qed.
(** what follows the first byte *)
Definition unpack_tag (f : nat) (t : tag) (r : list N) : res (mobj * list N) :=
  match t with
  | TgInt z => Ok (MInt z, r)
  | TgNil => Ok (MNil, r)
  | TgBool x => Ok (MBool x, r)
  | TgUint k => let* (v, r') := read_uint k r in Ok (MInt v, r')
  | TgSint k => let* (v, r') := read_uint k r in Ok (MInt (to_signed k v), r')
  | TgFloat => let* (v, r') := read_uint 8 r in Ok (MFloat (Z.to_N v), r')
  | TgStr n => unpack_str n r
  | TgStrN k => let* (n, r') := read_uint k r in unpack_str n r'
  | TgBin k => let* (n, r') := read_uint k r in let* (x, r'') := take n r' in Ok (MBin x, r'')
  | TgArr n => let* (l, r') := unpack_list (unpack f) (Z.to_nat n) r in Ok (MArr l, r')
  | TgArrN k => let* (n, r') := read_uint k r in let* (l, r'') := unpack_list (unpack f) (Z.to_nat n) r' in Ok (MArr l, r'')
  | TgMap n => let* (d, r') := unpack_map (unpack f) (Z.to_nat n) [] r in Ok (MMap d, r')
  | TgMapN k => let* (n, r') := read_uint k r in let* (d, r'') := unpack_map (unpack f) (Z.to_nat n) [] r' in Ok (MMap d, r'')
  | TgFloat32 => let* (v, r') := read_uint 4 r in Ok (MFloat (Z.to_N (single_double v)), r')
  | TgExt _ | TgExtN _ => Err Unmodelled
  | TgBad => Err ValueError
  end.
Lemma unpack_by_tag f b r : unpack (S f) (b :: r) = unpack_tag f (classify b) r.
Proof. reflexivity. Qed.
Lemma cut_tag m f f' t : cut m (unpack f) (unpack f') -> cut m (unpack_tag f t) (unpack_tag f' t).
Proof.
  intros C. destruct t; cbn [unpack_tag]; try apply cut_ret; try apply cut_err.
  - apply (cut_bind m _ _ (fun d r' => Ok (MMap d, r')) (fun d r' => Ok (MMap d, r')) (cut_map m _ _ C _ _)). intros; apply cut_ret.
  - apply (cut_bind m _ _ (fun d r' => Ok (MArr d, r')) (fun d r' => Ok (MArr d, r')) (cut_list m _ _ C _)). intros; apply cut_ret.
  - apply cut_str.
  - apply (cut_bind m _ _ (fun n r' => let* (x, r'') := take n r' in Ok (MBin x, r'')) (fun n r' => let* (x, r'') := take n r' in Ok (MBin x, r'')) (cut_uint m k)). intros n.
    apply (cut_bind m _ _ (fun x r'' => Ok (MBin x, r'')) (fun x r'' => Ok (MBin x, r'')) (cut_take m n)). intros; apply cut_ret.
  - apply (cut_bind m _ _ (fun v r' => Ok (MFloat (Z.to_N v), r')) (fun v r' => Ok (MFloat (Z.to_N v), r')) (cut_uint m 8)). intros; apply cut_ret.
  - apply (cut_bind m _ _ (fun v r' => Ok (MInt v, r')) (fun v r' => Ok (MInt v, r')) (cut_uint m k)). intros; apply cut_ret.
  - apply (cut_bind m _ _ (fun v r' => Ok (MInt (to_signed k v), r')) (fun v r' => Ok (MInt (to_signed k v), r')) (cut_uint m k)). intros; apply cut_ret.
  - apply (cut_bind m _ _ (fun n r' => unpack_str n r') (fun n r' => unpack_str n r') (cut_uint m k)). intros; apply cut_str.
  - apply (cut_bind m _ _ (fun n r' => let* (l, r'') := unpack_list (unpack f) (Z.to_nat n) r' in Ok (MArr l, r'')) (fun n r' => let* (l, r'') := unpack_list (unpack f') (Z.to_nat n) r' in Ok (MArr l, r'')) (cut_uint m k)). intros n.
    apply (cut_bind m _ _ (fun d r' => Ok (MArr d, r')) (fun d r' => Ok (MArr d, r')) (cut_list m _ _ C _)). intros; apply cut_ret.
  - apply (cut_bind m _ _ (fun n r' => let* (l, r'') := unpack_map (unpack f) (Z.to_nat n) [] r' in Ok (MMap l, r'')) (fun n r' => let* (l, r'') := unpack_map (unpack f') (Z.to_nat n) [] r' in Ok (MMap l, r'')) (cut_uint m k)). intros n.
    apply (cut_bind m _ _ (fun d r' => Ok (MMap d, r')) (fun d r' => Ok (MMap d, r')) (cut_map m _ _ C _ _)). intros; apply cut_ret.
  - apply (cut_bind m _ _ (fun v r' => Ok (MFloat (Z.to_N (single_double v)), r')) (fun v r' => Ok (MFloat (Z.to_N (single_double v)), r')) (cut_uint m 4)). intros; apply cut_ret.
Qed.
Lemma ext_tag f f' t : extends (unpack f) (unpack f') -> extends (unpack_tag f t) (unpack_tag f' t).
Proof.
  intros C. destruct t; cbn [unpack_tag]; try apply ext_ret; try apply ext_err.
  - apply (ext_bind _ _ (fun d r' => Ok (MMap d, r')) (fun d r' => Ok (MMap d, r')) (ext_map _ _ C _ _)). intros; apply ext_ret.
  - apply (ext_bind _ _ (fun d r' => Ok (MArr d, r')) (fun d r' => Ok (MArr d, r')) (ext_list _ _ C _)). intros; apply ext_ret.
  - apply ext_str.
  - apply (ext_bind _ _ (fun n r' => let* (x, r'') := take n r' in Ok (MBin x, r'')) (fun n r' => let* (x, r'') := take n r' in Ok (MBin x, r'')) (ext_uint k)). intros n.
    apply (ext_bind _ _ (fun x r'' => Ok (MBin x, r'')) (fun x r'' => Ok (MBin x, r'')) (ext_take n)). intros; apply ext_ret.
  - apply (ext_bind _ _ (fun v r' => Ok (MFloat (Z.to_N v), r')) (fun v r' => Ok (MFloat (Z.to_N v), r')) (ext_uint 8)). intros; apply ext_ret.
  - apply (ext_bind _ _ (fun v r' => Ok (MInt v, r')) (fun v r' => Ok (MInt v, r')) (ext_uint k)). intros; apply ext_ret.
  - apply (ext_bind _ _ (fun v r' => Ok (MInt (to_signed k v), r')) (fun v r' => Ok (MInt (to_signed k v), r')) (ext_uint k)). intros; apply ext_ret.
  - apply (ext_bind _ _ (fun n r' => unpack_str n r') (fun n r' => unpack_str n r') (ext_uint k)). intros; apply ext_str.
  - apply (ext_bind _ _ (fun n r' => let* (l, r'') := unpack_list (unpack f) (Z.to_nat n) r' in Ok (MArr l, r'')) (fun n r' => let* (l, r'') := unpack_list (unpack f') (Z.to_nat n) r' in Ok (MArr l, r'')) (ext_uint k)). intros n.
    apply (ext_bind _ _ (fun d r' => Ok (MArr d, r')) (fun d r' => Ok (MArr d, r')) (ext_list _ _ C _)). intros; apply ext_ret.
  - apply (ext_bind _ _ (fun n r' => let* (l, r'') := unpack_map (unpack f) (Z.to_nat n) [] r' in Ok (MMap l, r'')) (fun n r' => let* (l, r'') := unpack_map (unpack f') (Z.to_nat n) [] r' in Ok (MMap l, r'')) (ext_uint k)). intros n.
    apply (ext_bind _ _ (fun d r' => Ok (MMap d, r')) (fun d r' => Ok (MMap d, r')) (ext_map _ _ C _ _)). intros; apply ext_ret.
  - apply (ext_bind _ _ (fun v r' => Ok (MFloat (Z.to_N (single_double v)), r')) (fun v r' => Ok (MFloat (Z.to_N (single_double v)), r')) (ext_uint 4)). intros; apply ext_ret.
Qed.
Lemma cut_unpack f : forall m, cut m (unpack f) (unpack m).
Proof.
  induction f as [|f IH]; intros [|m] b1 b2 a r L H; try discriminate; [lia|]. destruct b1 as [|b b1].
  - cbn [app] in H. right. exists (firstn (length b2 - length r) b2), StopIteration. cbn [unpack]. pose proof (unpack_shrinks _ _ _ _ H) as Sh.
    assert (Sf : exists p, b2 = p ++ r).
    { destruct b2 as [|b b2]; [discriminate|]. rewrite unpack_by_tag in H. destruct (cut_eats 0 _ _ _ _ _ (cut_tag 1 f 1 (classify b) (IH 1%nat)) H) as [p ->]. exists (b :: p). reflexivity. }
    destruct Sf as [p ->]. rewrite app_length in *. replace (length p + length r - length r)%nat with (length p + 0)%nat by lia. rewrite firstn_app_2. cbn [firstn]. rewrite app_nil_r.
    repeat split; [|left; reflexivity]. destruct p; [simpl in Sh; lia|discriminate].
  - cbn [app length] in *. rewrite unpack_by_tag in *. destruct (cut_tag m f m (classify b) (IH m) b1 b2 a r ltac:(lia) H) as [(r1 & -> & E & p & ->)|(b3 & e & N3 & -> & W & E)].
    + left. exists r1. repeat split; auto. exists (b :: p). reflexivity.
    + right. exists b3, e. auto.
Qed.
Lemma ext_unpack f : forall f', (f <= f')%nat -> extends (unpack f) (unpack f').
Proof.
  induction f as [|f IH]; intros f' L b1 b2 a r H; [discriminate|]. destruct f' as [|f']; [lia|]. destruct b1 as [|b b1]; [discriminate|]. cbn [app].
  rewrite unpack_by_tag in *. apply (ext_tag f f' (classify b)); [|assumption]. apply IH. lia.
Qed.
Lemma cut_unpack1 m : cut m unpack1 unpack1.
Proof. intros b1 b2 a r _ H. exact (cut_unpack _ (S (length b1)) b1 b2 a r ltac:(lia) H). Qed.
Lemma ext_unpack1 : extends unpack1 unpack1.
Proof. intros b1 b2 a r H. unfold unpack1. apply (ext_unpack (S (length b1))); [rewrite app_length; lia|assumption]. Qed.

(** ** skipping *)
Lemma cut_skip_n m u u' : cut m u u' -> forall n, cut m (skip_n u n) (skip_n u' n).
Proof.
  intros C. induction n as [|n IH]; [apply cut_ret|]. apply (cut_bind m _ _ (fun _ r => skip_n u n r) (fun _ r => skip_n u' n r) C). intros _. apply IH.
Qed.
Lemma ext_skip_n u u' : extends u u' -> forall n, extends (skip_n u n) (skip_n u' n).
Proof.
  intros C. induction n as [|n IH]; [apply ext_ret|]. apply (ext_bind _ _ (fun _ r => skip_n u n r) (fun _ r => skip_n u' n r) C). intros _. apply IH.
Qed.
Lemma cut_skip_bytes m k : cut m (skip_bytes k) (skip_bytes k).
Proof. apply (cut_bind m _ _ (fun _ r => Ok (tt, r)) (fun _ r => Ok (tt, r)) (cut_take m k)). intros; apply cut_ret. Qed.
Lemma ext_skip_bytes k : extends (skip_bytes k) (skip_bytes k).
Proof. apply (ext_bind _ _ (fun _ r => Ok (tt, r)) (fun _ r => Ok (tt, r)) (ext_take k)). intros; apply ext_ret. Qed.
Definition skip_tag (f : nat) (t : tag) (r : list N) : res (unit * list N) :=
  match t with
  | TgInt _ | TgNil | TgBool _ => Ok (tt, r)
  | TgUint k | TgSint k => skip_bytes k r
  | TgFloat => skip_bytes 8 r
  | TgStr n => skip_bytes n r
  | TgStrN k | TgBin k => let* (n, r') := read_uint k r in skip_bytes n r'
  | TgArr n => skip_n (skip f) (Z.to_nat n) r
  | TgArrN k => let* (n, r') := read_uint k r in skip_n (skip f) (Z.to_nat n) r'
  | TgMap n => skip_n (skip f) (2 * Z.to_nat n) r
  | TgMapN k => let* (n, r') := read_uint k r in skip_n (skip f) (2 * Z.to_nat n) r'
  | TgFloat32 => skip_bytes 4 r
  | TgExt n => skip_bytes (n + 1) r
  | TgExtN k => let* (n, r') := read_uint k r in skip_bytes (n + 1) r'
  | TgBad => Err ValueError
  end.
Lemma skip_by_tag f b r : skip (S f) (b :: r) = skip_tag f (classify b) r.
Proof. reflexivity. Qed.
Lemma cut_skip_tag m f f' t : cut m (skip f) (skip f') -> cut m (skip_tag f t) (skip_tag f' t).
Proof.
  intros C. destruct t; cbn [skip_tag]; try apply cut_ret; try apply cut_err; try apply cut_skip_bytes; try (apply cut_skip_n; assumption).
  - apply (cut_bind m _ _ (fun n r' => skip_bytes n r') (fun n r' => skip_bytes n r') (cut_uint m k)). intros; apply cut_skip_bytes.
  - apply (cut_bind m _ _ (fun n r' => skip_bytes n r') (fun n r' => skip_bytes n r') (cut_uint m k)). intros; apply cut_skip_bytes.
  - apply (cut_bind m _ _ (fun n r' => skip_n (skip f) (Z.to_nat n) r') (fun n r' => skip_n (skip f') (Z.to_nat n) r') (cut_uint m k)). intros; apply cut_skip_n; assumption.
  - apply (cut_bind m _ _ (fun n r' => skip_n (skip f) (2 * Z.to_nat n) r') (fun n r' => skip_n (skip f') (2 * Z.to_nat n) r') (cut_uint m k)). intros; apply cut_skip_n; assumption.
  - apply (cut_bind m _ _ (fun n r' => skip_bytes (n + 1) r') (fun n r' => skip_bytes (n + 1) r') (cut_uint m k)). intros; apply cut_skip_bytes.
Qed.
Lemma ext_skip_tag f f' t : extends (skip f) (skip f') -> extends (skip_tag f t) (skip_tag f' t).
Proof.
  intros C. destruct t; cbn [skip_tag]; try apply ext_ret; try apply ext_err; try apply ext_skip_bytes; try (apply ext_skip_n; assumption).
  - apply (ext_bind _ _ (fun n r' => skip_bytes n r') (fun n r' => skip_bytes n r') (ext_uint k)). intros; apply ext_skip_bytes.
  - apply (ext_bind _ _ (fun n r' => skip_bytes n r') (fun n r' => skip_bytes n r') (ext_uint k)). intros; apply ext_skip_bytes.
  - apply (ext_bind _ _ (fun n r' => skip_n (skip f) (Z.to_nat n) r') (fun n r' => skip_n (skip f') (Z.to_nat n) r') (ext_uint k)). intros; apply ext_skip_n; assumption.
  - apply (ext_bind _ _ (fun n r' => skip_n (skip f) (2 * Z.to_nat n) r') (fun n r' => skip_n (skip f') (2 * Z.to_nat n) r') (ext_uint k)). intros; apply ext_skip_n; assumption.
  - apply (ext_bind _ _ (fun n r' => skip_bytes (n + 1) r') (fun n r' => skip_bytes (n + 1) r') (ext_uint k)). intros; apply ext_skip_bytes.
Qed.
Lemma cut_skip f : forall m, cut m (skip f) (skip m).
Proof.
  induction f as [|f IH]; intros [|m] b1 b2 a r L H; try discriminate; [lia|]. destruct b1 as [|b b1].
  - cbn [app] in H. right. destruct b2 as [|b b2]; [discriminate|]. rewrite skip_by_tag in H.
    destruct (cut_eats 0 _ _ _ _ _ (cut_skip_tag 1 f 1 (classify b) (IH 1%nat)) H) as [p ->]. exists (b :: p), StopIteration. repeat split; [discriminate|left; reflexivity].
  - cbn [app length] in *. rewrite skip_by_tag in *. destruct (cut_skip_tag m f m (classify b) (IH m) b1 b2 a r ltac:(lia) H) as [(r1 & -> & E & p & ->)|(b3 & e & N3 & -> & W & E)].
    + left. exists r1. repeat split; auto. exists (b :: p). reflexivity.
    + right. exists b3, e. auto.
Qed.
Lemma ext_skip f : forall f', (f <= f')%nat -> extends (skip f) (skip f').
Proof.
  induction f as [|f IH]; intros f' L b1 b2 a r H; [discriminate|]. destruct f' as [|f']; [lia|]. destruct b1 as [|b b1]; [discriminate|]. cbn [app].
  rewrite skip_by_tag in *. apply (ext_skip_tag f f' (classify b)); [|assumption]. apply IH. lia.
Qed.
Lemma skip1_ok bs a r : skip1 bs = Ok (a, r) <-> skip (S (length bs)) bs = Ok (a, r).
Proof. unfold skip1. destruct (skip _ bs) as [x|e]; [tauto|]. destruct e; split; discriminate. Qed.
Lemma cut_skip1 m : cut m skip1 skip1.
Proof.
  intros b1 b2 a r _ H. apply skip1_ok in H. destruct (cut_skip _ (S (length b1)) b1 b2 a r ltac:(lia) H) as [(r1 & -> & E & P)|(b3 & e & N3 & -> & W & E)].
  - left. exists r1. repeat split; auto. apply skip1_ok. assumption.
  - right. exists b3, OutOfData. repeat split; auto; [right; reflexivity|]. unfold skip1. rewrite E. destruct W as [->| ->]; reflexivity.
Qed.
Lemma ext_skip1 : extends skip1 skip1.
Proof. intros b1 b2 a r H. apply skip1_ok in H. apply skip1_ok. apply (ext_skip (S (length b1))); [rewrite app_length; lia|assumption]. Qed.
