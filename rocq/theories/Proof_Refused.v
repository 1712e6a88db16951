(** Proofs for C116: what is refused, and how. *)
From Verif Require Import PyBase PyBaseFacts Model_Printout Model_PyRepr Model_Declare Model_Text Model_Heap Model_Layer Model_Types Model_Msgpack Model_Document Model_Codec Model_Lazy Model_Collection Model_Boundary
  Spec_Layer Spec_Msgpack Spec_Document Spec_Codec Spec_Refused Proof_Msgpack Proof_Document Proof_Codec3.
Local Open Scope Z_scope.

(** ** heads *)
Lemma str_head_err n e : str_head n = Err e <-> 4294967296 <= n /\ e = ValueError.
Proof.
  unfold str_head. destruct (Z.ltb_spec n 32); [split; [discriminate|lia]|]. destruct (Z.ltb_spec n (2 ^ 8)); [split; [discriminate|lia]|].
  destruct (Z.ltb_spec n (2 ^ 16)); [split; [discriminate|lia]|]. destruct (Z.ltb_spec n (2 ^ 32)); [split; [discriminate|lia]|]. split; [intros [= <-]; split; [lia|reflexivity]|intros [_ ->]; reflexivity].
Qed.
Lemma bin_head_err n e : bin_head n = Err e <-> 4294967296 <= n /\ e = ValueError.
Proof.
  unfold bin_head. destruct (Z.ltb_spec n (2 ^ 8)); [split; [discriminate|lia]|].
  destruct (Z.ltb_spec n (2 ^ 16)); [split; [discriminate|lia]|]. destruct (Z.ltb_spec n (2 ^ 32)); [split; [discriminate|lia]|]. split; [intros [= <-]; split; [lia|reflexivity]|intros [_ ->]; reflexivity].
Qed.
Lemma arr_head_err n e : arr_head n = Err e <-> 4294967296 <= n /\ e = ValueError.
Proof.
  unfold arr_head. destruct (Z.ltb_spec n 16); [split; [discriminate|lia]|].
  destruct (Z.ltb_spec n (2 ^ 16)); [split; [discriminate|lia]|]. destruct (Z.ltb_spec n (2 ^ 32)); [split; [discriminate|lia]|]. split; [intros [= <-]; split; [lia|reflexivity]|intros [_ ->]; reflexivity].
Qed.
Lemma map_head_err n e : map_head n = Err e <-> 4294967296 <= n /\ e = ValueError.
Proof.
  unfold map_head. destruct (Z.ltb_spec n 16); [split; [discriminate|lia]|].
  destruct (Z.ltb_spec n (2 ^ 16)); [split; [discriminate|lia]|]. destruct (Z.ltb_spec n (2 ^ 32)); [split; [discriminate|lia]|]. split; [intros [= <-]; split; [lia|reflexivity]|intros [_ ->]; reflexivity].
Qed.
Lemma pack_int_err i e : pack_int i = Err e <-> ~ (- 9223372036854775808 <= i < 18446744073709551616) /\ e = OverflowError.
Proof.
  unfold pack_int. destruct (Z.ltb_spec i (- 2 ^ 63)); [split; [intros [= <-]; split; [lia|reflexivity]|intros [_ ->]; reflexivity]|].
  repeat match goal with |- context [?a <? ?b] => destruct (Z.ltb_spec a b); [split; [discriminate|lia]|] end. split; [intros [= <-]; split; [lia|reflexivity]|intros [_ ->]; reflexivity].
Qed.
Lemma utf8_char_err c e : utf8_char c = Err e -> e = UnicodeError.
Proof. unfold utf8_char. repeat match goal with |- context [if ?b then _ else _] => destruct b end; intros H; inversion H; reflexivity. Qed.
Lemma utf8_encode_err x e : utf8_encode x = Err e <-> ~ Forall scalar x /\ e = UnicodeError.
Proof.
  assert (A : forall e, utf8_encode x = Err e -> e = UnicodeError).
  { clear e. induction x as [|c r IH]; intros e H; [discriminate|]. cbn [utf8_encode] in H. destruct (utf8_char c) as [a|e'] eqn:E; cbn [rbind] in H.
    - destruct (utf8_encode r) as [b|e']; cbn [rbind] in H; [discriminate|]. inversion H; subst. apply IH. reflexivity.
    - inversion H; subst. eapply utf8_char_err. exact E. }
  split.
  - intros H. split; [|apply A, H]. intros F. destruct (utf8_encode_len x F) as (b & E & _). congruence.
  - intros [F ->]. destruct (utf8_encode x) as [b|e'] eqn:E; [|f_equal; apply A; reflexivity]. destruct F. eapply utf8_encode_scalar. exact E.
Qed.
Lemma pack_str_err x e : pack_str x = Err e <-> str_refused x e.
Proof.
  unfold pack_str. destruct (utf8_encode x) as [b|e'] eqn:E; cbn [rbind].
  - pose proof (utf8_encode_scalar x b E) as Hs. destruct (utf8_encode_len x Hs) as (b' & E' & L). rewrite E in E'. injection E' as <-.
    destruct (str_head (zlen b)) as [hd|e'] eqn:H; cbn [rbind].
    + split; [discriminate|]. intros R. exfalso. inversion R as [Q|_ Q]; subst; [contradiction|]. assert (X : str_head (zlen b) = Err ValueError) by (apply str_head_err; split; [lia|reflexivity]). congruence.
    + apply str_head_err in H. destruct H as [H ->]. split; [intros [= <-]; constructor; [assumption|lia]|]. intros R. inversion R; subst; [contradiction|reflexivity].
  - apply utf8_encode_err in E. destruct E as [F ->]. split; [intros [= <-]; constructor; assumption|]. intros R. inversion R; subst; [reflexivity|contradiction].
Qed.
(** ** containers: the first element that is refused *)
Lemma concat_err {A} (f : A -> res (list N)) (P : A -> Prop) (Q : A -> exn -> Prop) l e :
  Forall (fun x => ((exists p, f x = Ok p) <-> P x) /\ forall e, f x = Err e <-> Q x e) l ->
  (concatM f l = Err e <-> exists pre x post, l = pre ++ x :: post /\ Forall P pre /\ Q x e).
Proof.
  induction 1 as [|x l [Hp Hq] Hl IH]; cbn [concatM].
  - split; [discriminate|]. intros (pre & x & post & E & _). destruct pre; discriminate.
  - destruct (f x) as [a|e'] eqn:E; cbn [rbind].
    + assert (N0 : forall e, ~ Q x e) by (intros e0 H; apply Hq in H; congruence). assert (Px : P x) by (apply Hp; eauto). split.
      * intros H. assert (H' : concatM f l = Err e) by (destruct (concatM f l); cbn [rbind] in H; [discriminate|congruence]). apply IH in H'. destruct H' as (pre & y & post & -> & F & R).
        exists (x :: pre), y, post. split; [reflexivity|]. split; [constructor; assumption|assumption].
      * intros (pre & y & post & E2 & F & R). destruct pre as [|z pre]; cbn [app] in E2; inversion E2; subst; [destruct (N0 e R)|]. inversion F; subst.
        assert (H' : concatM f (pre ++ y :: post) = Err e) by (apply IH; exists pre, y, post; auto). rewrite H'. reflexivity.
    + split.
      * intros [= <-]. exists [], x, l. split; [reflexivity|]. split; [constructor|]. apply Hq. reflexivity.
      * intros (pre & y & post & E2 & F & R). destruct pre as [|z pre]; cbn [app] in E2; inversion E2; subst; [apply Hq in R; congruence|]. inversion F as [|? ? Pz]; subst.
        apply Hp in Pz. destruct Pz as [p Pz]. congruence.
Qed.
Lemma pack_err o : forall e, pack o = Err e <-> refused o e.
Proof.
  induction o using mobj_rect'; intros e; cbn [pack].
  - split; [discriminate|intros H; inversion H].
  - split; [destruct b; discriminate|intros H; inversion H].
  - rewrite pack_int_err. split; [intros [H ->]; constructor; assumption|]. intros H. inversion H; subst. auto.
  - split; [discriminate|intros H; inversion H].
  - rewrite pack_str_err. split; [constructor; assumption|]. intros H. inversion H; subst. assumption.
  - destruct (bin_head (zlen x)) as [hd|e'] eqn:E; cbn [rbind].
    + split; [discriminate|]. intros H. inversion H as [| |? L| | | | |]; subst. assert (X : bin_head (zlen x) = Err ValueError) by (apply bin_head_err; auto). congruence.
    + apply bin_head_err in E. destruct E as [L ->]. split; [intros [= <-]; constructor; assumption|]. intros H. inversion H; subst. reflexivity.
  - assert (CE := concat_err pack fits refused l e). assert (F0 : Forall (fun x => ((exists p, pack x = Ok p) <-> fits x) /\ forall e, pack x = Err e <-> refused x e) l).
    { eapply Forall_impl; [|exact H]. intros x Hx. split; [apply pack_fits|exact Hx]. }
    specialize (CE F0). destruct (arr_head (zlen l)) as [hd|e'] eqn:E; cbn [rbind].
    + assert (Ls : zlen l < 4294967296) by (apply arr_head_fits; eauto). split.
      * intros Hc. assert (H' : concatM pack l = Err e) by (destruct (concatM pack l); cbn [rbind] in Hc; [discriminate|congruence]). apply CE in H'. destruct H' as (pre & y & post & -> & Fp & R). constructor; assumption.
      * intros R. inversion R as [| | |? L|pre y post ? L Fp Ry| | |]; subst; [lia|]. assert (H' : concatM pack (pre ++ y :: post) = Err e) by (apply CE; eauto 6). rewrite H'. reflexivity.
    + apply arr_head_err in E. destruct E as [L ->]. split; [intros [= <-]; constructor; assumption|]. intros R. inversion R; subst; [reflexivity|lia].
  - set (g := fun kv : pystr * mobj => let* k := pack_str (fst kv) in let* v := pack (snd kv) in Ok (k ++ v)).
    assert (CE := concat_err g (fun kv => str_fits (fst kv) /\ fits (snd kv)) (fun kv e => str_refused (fst kv) e \/ str_fits (fst kv) /\ refused (snd kv) e) d e).
    assert (F0 : Forall (fun kv => ((exists p, g kv = Ok p) <-> str_fits (fst kv) /\ fits (snd kv)) /\ forall e, g kv = Err e <-> str_refused (fst kv) e \/ str_fits (fst kv) /\ refused (snd kv) e) d).
    { clear -H. induction d as [|[k v] d IH]; cbn [map] in H; [constructor|]. inversion H as [|? ? H1 H2]; subst. constructor; [|auto]. cbn [fst snd] in *. unfold g. cbn [fst snd].
      rewrite <- pack_str_fits, <- pack_fits. split.
      - split; [intros [p Hp]; destruct (pack_str k); [|discriminate]; cbn [rbind] in Hp; destruct (pack v); [eauto|discriminate]|]. intros [[p ->] [q ->]]. cbn [rbind]. eauto.
      - intros e. rewrite <- (H1 e), <- pack_str_err, <- pack_str_fits. destruct (pack_str k) as [a|e1]; cbn [rbind].
        + destruct (pack v) as [b|e2]; cbn [rbind].
          { split; [discriminate|]. intros [Hx|[_ Hx]]; discriminate. }
          { split; [intros Hx; right; split; [eauto|exact Hx]|]. intros [Hx|[_ Hx]]; [discriminate|exact Hx]. }
        + split; [auto|]. intros [Hx|[[p Hx] _]]; [exact Hx|discriminate]. }
    specialize (CE F0). destruct (map_head (zlen d)) as [hd|e'] eqn:E; cbn [rbind].
    + assert (Ls : zlen d < 4294967296) by (apply map_head_fits; eauto). split.
      * intros Hc. assert (H' : concatM g d = Err e) by (destruct (concatM g d); cbn [rbind] in Hc; [discriminate|congruence]). apply CE in H'.
        destruct H' as (pre & [k v] & post & -> & Fp & [R|[Fk R]]); cbn [fst snd] in *; [eapply rf_key|eapply rf_value]; assumption.
      * intros R. inversion R as [| | | | |? L|pre k v post ? L Fp Rk|pre k v post ? L Fp Fk Rv]; subst; [lia| |].
        -- assert (H' : concatM g (pre ++ (k, v) :: post) = Err e) by (apply CE; exists pre, (k, v), post; cbn [fst snd]; auto). rewrite H'. reflexivity.
        -- assert (H' : concatM g (pre ++ (k, v) :: post) = Err e) by (apply CE; exists pre, (k, v), post; cbn [fst snd]; auto). rewrite H'. reflexivity.
    + apply map_head_err in E. destruct E as [L ->]. split; [intros [= <-]; constructor; assumption|]. intros R. inversion R; subst; [reflexivity|lia|lia].
Qed.

(** ** documents *)
Lemma missing_refused h d ex tv : (forall k f t, declared h d k f t -> option_ok t) ->
  (exists k f t x, declared h d k f t /\ (targets_layer t x /\ ~ In x (dkeys (d_layers d)) \/ targets_text t x /\ ~ In x (dkeys (d_texts d)))) ->
  msgpack_encode h d ex tv = (h, Err SchemaError).
Proof.
  intros O (k & f & t & x & (l & Hl & Hf) & M). unfold msgpack_encode, codec_encode, compile.
  enough (E : check_refs h d = Err SchemaError) by (rewrite E; reflexivity). unfold check_refs.
  destruct (layer_refs_total h (d_layers d)) as (a & b & E & _); [intros; eapply O; eexists; eauto|]. rewrite E. cbn [rbind].
  destruct (layer_refs_ok h _ a b E k l f t Hl Hf) as (_ & Ta & Tb).
  destruct (forallb (fun x => dmem (d_layers d) x) a) eqn:Fa; cbn [negb]; [|reflexivity]. destruct (forallb (fun x => dmem (d_texts d) x) b) eqn:Fb; cbn [negb]; [|reflexivity].
  exfalso. rewrite forallb_forall in Fa, Fb. destruct M as [[T Nx]|[T Nx]]; apply Nx; apply dmem_In; auto.
Qed.

(** ** the main text *)
Lemma main_text d t : (In (s "main") (dkeys (d_texts d)) -> set_maintext d t = Err AssertionError) /\
  (~ In (s "main") (dkeys (d_texts d)) -> exists d1, set_maintext d t = Ok d1 /\ dget (d_texts d1) (s "main") = Some t /\
     (forall k, k <> s "main" -> dget (d_texts d1) k = dget (d_texts d) k) /\ d_props d1 = d_props d /\ d_layers d1 = d_layers d).
Proof.
  unfold set_maintext. destruct (dmem (d_texts d) (s "main")) eqn:E.
  - split; [reflexivity|]. intros Hn. destruct Hn. apply dmem_In. exact E.
  - split; [intros Hi; apply dmem_In in Hi; congruence|]. intros _. eexists. split; [reflexivity|]. unfold add_text. cbn [d_texts d_props d_layers].
    split; [apply dget_dset_same|]. split; [intros k Hk; apply dget_dset_other; exact Hk|]. split; reflexivity.
Qed.
(** ** files with markers *)
Lemma open_refused f : (br_open f = Err IndexError <-> f = []) /\
  (br_open f = Err IOError <-> exists c r, f = c :: r /\ ~ (12 <= Z.of_N c <= 30)) /\
  forall e, br_open f = Err e -> e = IndexError \/ e = IOError.
Proof.
  unfold br_open. destruct f as [|c r].
  - split; [split; reflexivity|]. split; [split; [discriminate|intros (c & r & H & _); discriminate]|]. intros e [= <-]. auto.
  - destruct (Z.ltb_spec (Z.of_N c) 12), (Z.ltb_spec 30 (Z.of_N c)); cbn [orb].
    1-3: split; [split; discriminate|]; split; [split; [intros _; exists c, r; split; [reflexivity|lia]|reflexivity]|]; intros e [= <-]; auto.
    split; [split; discriminate|]. split; [split; [discriminate|]|discriminate]. intros (c' & r' & [= <- <-] & Hn). destruct Hn. lia.
Qed.
Lemma seek_refused r o : 12 <= br_b r <= 30 -> (snd (br_seek r o) = Err ValueError <-> o < -1) /\
  (forall e, snd (br_seek r o) = Err e -> e = ValueError /\ br_pos (fst (br_seek r o)) = br_pos r) /\ (-1 <= o -> snd (br_seek r o) = Ok o).
Proof.
  intros Hb. unfold br_seek. assert (P : 0 < 2 ^ br_b r) by (apply Z.pow_pos_nonneg; lia). assert (Q : 4096 <= 2 ^ br_b r) by (change 4096 with (2 ^ 12); apply Z.pow_le_mono_r; lia).
  assert (E : (to_absolute (br_b r) o <? 0) = (o <? -1)).
  { unfold to_absolute. rewrite Z.shiftl_mul_pow2, Z.mul_1_l by lia. destruct (Z.ltb_spec o (2 ^ br_b r - 1)).
    - destruct (Z.ltb_spec (o + 1) 0), (Z.ltb_spec o (-1)); lia || reflexivity.
    - destruct (Z.ltb_spec o (-1)); [lia|]. apply Z.ltb_ge. pose proof (Z.div_pos (o - 2 ^ br_b r + 1) (2 ^ br_b r - 4) ltac:(lia) ltac:(lia)). lia. }
  rewrite E. destruct (Z.ltb_spec o (-1)); cbn [fst snd br_pos].
  - split; [split; [auto|reflexivity]|]. split; [intros e [= <-]; auto|lia].
  - split; [split; [discriminate|lia]|]. split; [discriminate|reflexivity].
Qed.
Lemma write_refused h w : writer_write h w WOther = (h, w, Err ValueError).
Proof. reflexivity. Qed.
(** ** repr of a document *)
Lemma comma_joined : forall l, match l with [] => [] | _ => s ", " ++ comma_join l end = List.concat (map (fun x => s ", " ++ x) l).
Proof.
  induction l as [|x l IH]; [reflexivity|]. cbn [map List.concat]. rewrite <- IH. destruct l as [|y l].
  - cbn [comma_join]. rewrite app_nil_r. reflexivity.
  - change (comma_join (x :: y :: l)) with (x ++ s ", " ++ comma_join (y :: l)). rewrite <- !app_assoc. reflexivity.
Qed.
Lemma repr_text d ps x : d_props d = MMap ps -> (doc_repr d = Ok x <-> exists vs, Forall2 (fun kv v => prop_str (snd kv) = Ok v) ps vs /\
  x = s "Document(" ++ str_int (zlen (d_layers d)) ++ s " layers, " ++ str_int (zlen (d_texts d)) ++ s " texts" ++
      List.concat (map (fun kv => s ", " ++ fst (fst kv) ++ s "=" ++ snd kv) (combine ps vs)) ++ s ")").
Proof.
  intros Ep. unfold doc_repr. rewrite Ep.
  assert (A : forall ps : list (pystr * mobj), (exists vs, Forall2 (fun kv v => prop_str (snd kv) = Ok v) ps vs /\ mapM (fun kv => let* v := prop_str (snd kv) in Ok (fst kv ++ s "=" ++ v)) ps = Ok (map (fun kv => fst (fst kv) ++ s "=" ++ snd kv) (combine ps vs))) \/
    ((exists e, mapM (fun kv => let* v := prop_str (snd kv) in Ok (fst kv ++ s "=" ++ v)) ps = Err e) /\ forall vs, ~ Forall2 (fun kv v => prop_str (snd kv) = Ok v) ps vs)).
  { clear. induction ps as [|[k v] ps IH]; [left; exists []; split; [constructor|reflexivity]|]. cbn [mapM fst snd]. destruct (prop_str v) as [y|e] eqn:E; cbn [rbind].
    - destruct IH as [(vs & F & M)|((e & M) & Nf)].
      + left. exists (y :: vs). split; [constructor; assumption|]. rewrite M. reflexivity.
      + right. split; [exists e; rewrite M; reflexivity|]. intros vs F. inversion F; subst. eapply Nf. eassumption.
    - right. split; [eauto|]. intros vs F. inversion F; subst. cbn [snd] in *. congruence. }
  assert (U : forall (ps : list (pystr * mobj)) vs ws, Forall2 (fun kv v => prop_str (snd kv) = Ok v) ps vs -> Forall2 (fun kv v => prop_str (snd kv) = Ok v) ps ws -> vs = ws).
  { clear. intros ps vs ws F. revert ws. induction F as [|kv v ps vs Hv F IH]; intros ws G; inversion G as [|? w ? ws' Hw G']; subst; [reflexivity|]. f_equal; [congruence|auto]. }
  destruct (A ps) as [(vs & F & M)|((e & M) & Nf)]; rewrite M; cbn [rbind].
  - assert (J : (match ps with [] => [] | _ => s ", " ++ comma_join (map (fun kv => fst (fst kv) ++ s "=" ++ snd kv) (combine ps vs)) end) =
      List.concat (map (fun kv => s ", " ++ fst (fst kv) ++ s "=" ++ snd kv) (combine ps vs))).
    { rewrite <- (map_map (fun kv : pystr * mobj * pystr => fst (fst kv) ++ s "=" ++ snd kv) (fun x => s ", " ++ x)). rewrite <- comma_joined. inversion F; subst; reflexivity. }
    rewrite J. split.
    + intros H. exists vs. split; [exact F|]. congruence.
    + intros (ws & G & ->). rewrite (U ps vs ws F G). reflexivity.
  - split; [discriminate|]. intros (vs & F & _). destruct (Nf vs F).
Qed.
