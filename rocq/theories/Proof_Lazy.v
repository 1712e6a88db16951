(** Lazy decoding gives the parts of full decoding. *)
From Verif Require Import PyBase PyBaseFacts Model_Text Model_Heap Model_Layer Model_Types Model_Msgpack Model_Document Model_Codec Model_Lazy
  Spec_Layer Spec_Types Spec_Msgpack Spec_Document Spec_Codec Spec_Lazy Proof_Msgpack Proof_Layout Proof_Codec Proof_Codec2.
Local Open Scope Z_scope.
Local Arguments s : simpl never.

Lemma zlen_app {A} (a b : list A) : zlen (a ++ b) = zlen a + zlen b.
Proof. unfold zlen. rewrite app_length. lia. Qed.
Lemma seek_app a b : seek (a ++ b) (zlen a) = Ok b.
Proof.
  unfold seek. pose proof (zlen_nonneg a). destruct (Z.ltb_spec (zlen a) 0); [lia|]. f_equal. unfold zlen. rewrite Nat2Z.id.
  rewrite skipn_app, skipn_all, Nat.sub_diag. reflexivity.
Qed.
Lemma seek_at raw p a b : raw = a ++ b -> p = zlen a -> seek raw p = Ok b.
Proof. intros -> ->. apply seek_app. Qed.

(** ** projection *)
Lemma map_header_pack n hd bs : 0 <= n -> map_head n = Ok hd -> read_map_header (hd ++ bs) = Ok (n, bs).
Proof.
  intros Hn. unfold map_head. destruct (Z.ltb_spec n 16).
  - intros E. apply Ok_inj in E. subst hd. cbn [app read_map_header]. rewrite classify_map by lia. reflexivity.
  - change (2 ^ 16) with 65536. change (2 ^ 32) with 4294967296. destruct (Z.ltb_spec n 65536).
    + intros E. apply Ok_inj in E. subst hd. rewrite <- app_comm_cons. cbn [read_map_header classify]. exact (read2 n bs ltac:(lia)).
    + destruct (Z.ltb_spec n 4294967296); [|discriminate]. intros E. apply Ok_inj in E. subst hd. rewrite <- app_comm_cons. cbn [read_map_header classify]. exact (read4 n bs ltac:(lia)).
Qed.
Lemma pick_entries_pack keys d : forall acc b rest, NoDup (map fst (acc ++ d)) -> Forall python_value (map snd d) ->
  concatM (fun kv => let* k := pack_str (fst kv) in let* v := pack (snd kv) in Ok (k ++ v)) d = Ok b ->
  pick_entries (length d) keys acc (b ++ rest) = Ok (acc ++ filter (fun kv => among keys (fst kv)) d).
Proof.
  induction d as [|[k v] d IH]; intros acc b rest ND P H.
  - rewrite app_nil_r. reflexivity.
  - apply concatM_cons in H. destruct H as (p1 & p2 & E1 & E2 & ->). cbn [fst snd] in E1. destruct (pack_str k) as [pk|] eqn:Ek; [|discriminate]. cbn [rbind] in E1.
    destruct (pack v) as [pv|] eqn:Ev; [|discriminate]. cbn [rbind] in E1. apply Ok_inj in E1. subst p1. inversion P; subst.
    cbn [length pick_entries]. rewrite <- !app_assoc. rewrite (unpack1_pack (MStr k) pk _ (pv_str k) Ek). cbn [rbind as_str].
    fold (among keys k). rewrite (unpack1_pack v pv _ H1 Ev), (skip1_pack v pv _ H1 Ev). cbn [rbind]. assert (Nk : ~ In k (map fst acc)).
    { rewrite map_app in ND. cbn [map fst] in ND. apply NoDup_remove_2 in ND. intros Hk. apply ND. apply in_or_app. auto. }
    cbn [filter fst]. destruct (among keys k).
    + rewrite dset_new by assumption. rewrite (IH (acc ++ [(k, v)]) p2 rest); [rewrite <- app_assoc; reflexivity|rewrite <- app_assoc; assumption|assumption|assumption].
    + rewrite (IH acc p2 rest); [reflexivity| |assumption|assumption]. rewrite map_app in *. cbn [map] in ND. apply NoDup_remove_1 in ND. assumption.
Qed.
Lemma pick_none d : forall acc b rest, Forall python_value (map snd d) ->
  concatM (fun kv => let* k := pack_str (fst kv) in let* v := pack (snd kv) in Ok (k ++ v)) d = Ok b ->
  pick_entries (length d) [] acc (b ++ rest) = Ok acc.
Proof.
  induction d as [|[k v] d IH]; intros acc b rest P H; [reflexivity|].
  apply concatM_cons in H. destruct H as (p1 & p2 & E1 & E2 & ->). cbn [fst snd] in E1. destruct (pack_str k) as [pk|] eqn:Ek; [|discriminate]. cbn [rbind] in E1.
  destruct (pack v) as [pv|] eqn:Ev; [|discriminate]. cbn [rbind] in E1. apply Ok_inj in E1. subst p1. inversion P; subst.
  cbn [length pick_entries]. rewrite <- !app_assoc. rewrite (unpack1_pack (MStr k) pk _ (pv_str k) Ek). cbn [rbind as_str].
  cbn [existsb]. rewrite (skip1_pack v pv _ H1 Ev). cbn [rbind]. eapply IH; assumption.
Qed.
Lemma map_inv d b : pack (MMap d) = Ok b -> exists hd b', map_head (zlen d) = Ok hd /\
  concatM (fun kv => let* k := pack_str (fst kv) in let* v := pack (snd kv) in Ok (k ++ v)) d = Ok b' /\ b = hd ++ b'.
Proof.
  intros H. cbn [pack] in H. destruct (map_head (zlen d)) as [hd|]; [|discriminate]. cbn [rbind] in H.
  destruct (concatM _ d) as [b'|] eqn:E; [|discriminate]. cbn [rbind] in H. apply Ok_inj in H. eauto.
Qed.
Lemma decode_property_pack d b rest keys : python_value (MMap d) -> pack (MMap d) = Ok b -> decode_property (b ++ rest) keys = Ok (project keys (MMap d)).
Proof.
  intros P H. destruct keys as [|k ks].
  - unfold decode_property. rewrite (unpack1_pack _ _ _ P H). reflexivity.
  - destruct (map_inv d b H) as (hd & b' & Hh & Hb & ->). unfold decode_property. rewrite <- app_assoc. rewrite (map_header_pack _ _ _ (zlen_nonneg d) Hh). cbn [rbind].
    unfold zlen. rewrite Nat2Z.id. inversion P; subst. rewrite (pick_entries_pack (k :: ks) d [] b' rest); [reflexivity|assumption|assumption|assumption].
Qed.
Lemma decode_texts_pack d b rest names : python_value (MMap d) -> pack (MMap d) = Ok b ->
  decode_texts (b ++ rest) names = Ok (match names with [] => MMap d | _ => MMap [] end).
Proof.
  intros P H. destruct names as [|k ks].
  - unfold decode_texts. rewrite (unpack1_pack _ _ _ P H). reflexivity.
  - destruct (map_inv d b H) as (hd & b' & Hh & Hb & ->). unfold decode_texts. rewrite <- app_assoc. rewrite (map_header_pack _ _ _ (zlen_nonneg d) Hh). cbn [rbind].
    unfold zlen. rewrite Nat2Z.id. inversion P; subst. rewrite (pick_none d [] b' rest); [reflexivity|assumption|assumption].
Qed.

(** ** layers at their positions *)
Definition found (raw : list N) (el : elayer) (e : pystr * (Z * Z)) : Prop :=
  fst e = el_name el /\ exists body rest, seek raw (fst (snd e)) = Ok (body ++ rest) /\ pack_all (layer_objs el) = Ok body.
Lemma find_layers_pack raw els : forall pre b rest p, concatM (fun l => section (layer_objs l)) els = Ok b -> raw = pre ++ b ++ rest -> p = zlen pre ->
  exists q, find_layers raw p (map el_name els) = Ok q /\ Forall2 (found raw) els q.
Proof.
  induction els as [|el els IH]; intros pre b rest p H R E; [exists []; split; [reflexivity|constructor]|].
  apply concatM_cons in H. destruct H as (p1 & p2 & E1 & E2 & ->). apply section_inv in E1. destruct E1 as (n & body & k & Pk & Pb & -> & ->).
  cbn [map find_layers]. rewrite (seek_at raw p pre ((n ++ body) ++ p2 ++ rest)); [|rewrite R, !app_assoc; reflexivity|assumption]. cbn [rbind]. rewrite <- app_assoc.
  rewrite (unpack1_pack _ _ _ (pv_int _) Pk). cbn [rbind as_num].
  destruct (IH (pre ++ n ++ body) p2 rest (zlen (n ++ body ++ p2 ++ rest) - zlen (body ++ p2 ++ rest) + p + zlen body) E2) as (q & -> & Fq).
  - rewrite R, <- !app_assoc. reflexivity.
  - rewrite !zlen_app. lia.
  - cbn [rbind]. eexists. split; [reflexivity|]. constructor; [|assumption]. split; [reflexivity|]. exists body, (p2 ++ rest). split; [|assumption]. cbn [fst snd].
    apply (seek_at _ _ (pre ++ n)); [rewrite R, <- !app_assoc; reflexivity|rewrite !zlen_app; lia].
Qed.
Definition datas (els : list elayer) : dict (Z * list (list mobj)) := map (fun el => (el_name el, layer_data el)) els.
Lemma found_layer raw els sch q : Forall2 (found raw) els q -> Forall2 layer_reads els sch -> forall x,
  md_layer raw sch q x = (let* d := dgetE (datas els) x in Ok (x, d)).
Proof.
  unfold md_layer. intros F. revert sch. induction F as [|el [k pz] els q (Hk & body & rest & Hs & Hb) F IH]; intros sch Fs x; inversion Fs as [|? [k' fs] ? sch' (F1 & F2 & F3 & F4) Fs']; subst.
  - reflexivity.
  - cbn [fst snd] in *. subst k k'. unfold dgetE in *. cbn [datas map dget]. destruct (str_eqb x (el_name el)).
    + cbn [rbind fst]. rewrite Hs. cbn [rbind]. rewrite (read_layer_pack el fs body rest); [reflexivity|symmetry; eapply Forall2_length; exact F2|assumption|assumption].
    + apply IH. assumption.
Qed.
Lemma datas_keys els : map fst (datas els) = map el_name els.
Proof. unfold datas. rewrite map_map. reflexivity. Qed.
Lemma among_In ks x : among ks x = true <-> In x ks.
Proof.
  unfold among. rewrite existsb_exists. split.
  - intros (y & Hy & E). apply str_eqb_eq in E. subst. assumption.
  - intros H. exists x. split; [assumption|apply str_eqb_refl].
Qed.
Lemma dgetE_In {A} (d : dict A) x : In x (map fst d) -> exists v, dgetE d x = Ok v.
Proof. intros H. apply dmem_In in H. unfold dmem in H. unfold dgetE. destruct (dget d x); [eauto|discriminate]. Qed.
Lemma dgetE_notin {A} (d : dict A) x : ~ In x (map fst d) -> dgetE d x = Err KeyError.
Proof. intros H. unfold dgetE. destruct (dget d x) eqn:E; [|reflexivity]. exfalso. apply H. apply in_map_iff. exists (x, a). split; [reflexivity|apply dget_In; assumption]. Qed.
Lemma read_all els L : (forall x, In x L -> In x (map el_name els)) ->
  exists rd, mapM (fun x => let* d := dgetE (datas els) x in Ok (x, d)) L = Ok rd /\ map fst rd = L /\ forall x d, In (x, d) rd -> dgetE (datas els) x = Ok d.
Proof.
  induction L as [|x L IH]; intros H; [exists []; split; [reflexivity|split; [reflexivity|intros ? ? []]]|].
  destruct (dgetE_In (datas els) x) as [d Ed]; [rewrite datas_keys; apply H; left; reflexivity|]. destruct IH as (rd & E & K & G); [intros; apply H; right; assumption|].
  exists ((x, d) :: rd). cbn [mapM]. rewrite Ed. cbn [rbind]. rewrite E. cbn [rbind]. split; [reflexivity|]. split; [simpl; congruence|]. intros y e [[= <- <-]|Hy]; auto.
Qed.
Lemma read_bad els L : ~ (forall x, In x L -> In x (map el_name els)) -> mapM (fun x => let* d := dgetE (datas els) x in Ok (x, d)) L = Err KeyError.
Proof.
  induction L as [|x L IH]; intros H; [exfalso; apply H; intros ? []|]. cbn [mapM]. destruct (in_dec (list_eq_dec N.eq_dec) x (map el_name els)) as [Hx|Hx].
  - destruct (dgetE_In (datas els) x) as [d ->]; [rewrite datas_keys; assumption|]. cbn [rbind]. rewrite IH; [reflexivity|]. intros G. apply H. intros y [<-|Hy]; auto.
  - rewrite dgetE_notin by (rewrite datas_keys; assumption). reflexivity.
Qed.
Lemma look_all els rd (sch : schema_t) : map fst sch = map el_name els -> NoDup (map el_name els) -> (forall x d, In (x, d) rd -> dgetE (datas els) x = Ok d) ->
  mapM (fun kf => dgetE (rev rd) (fst kf)) sch = if forallb (among (map fst rd)) (map fst sch) then Ok (map layer_data els) else Err KeyError.
Proof.
  intros K ND G.
  assert (Gl : forall x, dgetE (rev rd) x = if among (map fst rd) x then dgetE (datas els) x else Err KeyError).
  { intros x. destruct (among (map fst rd) x) eqn:Ea.
    - apply among_In in Ea. assert (Hx : In x (map fst (rev rd))) by (rewrite map_rev; apply in_rev; rewrite rev_involutive; assumption).
      apply dmem_In in Hx. unfold dmem in Hx. unfold dgetE at 1. destruct (dget (rev rd) x) as [d|] eqn:Ed; [|discriminate]. apply dget_In in Ed. apply in_rev in Ed. symmetry. apply G. assumption.
    - apply dgetE_notin. rewrite map_rev. intros Hx. apply in_rev in Hx. apply among_In in Hx. congruence. }
  assert (Gd : forall el, In el els -> dgetE (datas els) (el_name el) = Ok (layer_data el)).
  { intros el Hel. unfold dgetE. rewrite (dget_nodup (datas els) (el_name el) (layer_data el)); [reflexivity|unfold dkeys; rewrite datas_keys; assumption|].
    unfold datas. apply in_map_iff. exists el. auto. }
  assert (Hi : forall el, In el els -> In el els) by auto. revert K Hi. generalize els at 1 2 4 as els'. revert sch.
  induction sch as [|[k f] sch IH]; intros [|el els'] K Hi; try discriminate; [reflexivity|]. cbn [map fst] in K. injection K as -> K. cbn [mapM fst map forallb]. rewrite Gl.
  destruct (among (map fst rd) (el_name el)); [|reflexivity]. rewrite Gd by (apply Hi; left; reflexivity). cbn [rbind andb]. rewrite (IH els' K) by (intros; apply Hi; right; assumption).
  destruct (forallb _ _); reflexivity.
Qed.

Lemma reads_keys els (sch : schema_t) : Forall2 layer_reads els sch -> map fst sch = map el_name els.
Proof. induction 1 as [|el [k f] els' sch1 (Hk & _) F1 IH]; [reflexivity|]. cbn [map fst] in *. rewrite IH, Hk. reflexivity. Qed.

Section Lazy.
Variables (e : edoc) (sch : schema_t) (bytes rest : list N) (props : dict mobj).
Hypothesis L : layout e = Ok bytes.
Hypothesis Pp : python_value (ed_props e).
Hypothesis Pm : ed_props e = MMap props.
Hypothesis F : Forall2 layer_reads (ed_layers e) sch.
Hypothesis ND : NoDup (map el_name (ed_layers e)).
Hypothesis NT : NoDup (dkeys (ed_texts e)).
Let raw := bytes ++ rest.

Lemma schema_keys : map fst sch = map el_name (ed_layers e).
Proof. exact (reads_keys _ _ F). Qed.
Lemma lazy_open ref : md_open raw ref = Ok (mkMD raw ref None None None None).
Proof.
  apply layout_inv in L. destruct L as (n1 & k1 & b1 & sc & n2 & k2 & b2 & ls & _ & _ & _ & _ & _ & _ & _ & _ & E). unfold md_open, raw. rewrite E. rewrite <- !app_assoc.
  replace (firstn 4 (magic ++ n1 ++ b1 ++ sc ++ n2 ++ b2 ++ ls ++ rest)) with magic by reflexivity. reflexivity.
Qed.
Lemma lazy_state : exists pr tx ls, (forall ks, exists bs, seek raw (fst pr) = Ok bs /\ decode_property bs ks = Ok (project ks (ed_props e))) /\
  (forall ns, exists bs, seek raw (fst tx) = Ok bs /\ decode_texts bs ns = Ok (match ns with [] => texts_obj (ed_texts e) | _ => MMap [] end)) /\
  Forall2 (found raw) (ed_layers e) ls /\
  find_props raw = Ok pr /\ find_texts raw (fst pr + snd pr) = Ok (sch, tx) /\ find_layers raw (fst tx + snd tx) (map fst sch) = Ok ls.
Proof.
  apply layout_inv in L. destruct L as (n1 & k1 & b1 & sc & n2 & k2 & b2 & ls & P1 & K1 & Q1 & S & P2 & K2 & Q2 & Hl & E). subst k1 k2.
  assert (R : raw = magic ++ n1 ++ b1 ++ sc ++ n2 ++ b2 ++ ls ++ rest) by (unfold raw; rewrite E, <- !app_assoc; reflexivity).
  destruct (find_layers_pack raw (ed_layers e) (magic ++ n1 ++ b1 ++ sc ++ n2 ++ b2) ls rest (zlen (magic ++ n1 ++ b1 ++ sc ++ n2) + zlen b2) Hl) as (q & Eq & Fq);
    [rewrite R, <- !app_assoc; reflexivity|rewrite !zlen_app; lia|].
  exists (zlen (magic ++ n1), zlen b1), (zlen (magic ++ n1 ++ b1 ++ sc ++ n2), zlen b2), q. cbn [fst snd].
  split; [intros ks; exists (b1 ++ sc ++ n2 ++ b2 ++ ls ++ rest); split; [apply (seek_at _ _ (magic ++ n1)); [rewrite R, <- !app_assoc; reflexivity|reflexivity]|rewrite Pm in *; apply decode_property_pack; assumption]|].
  split; [intros ns; exists (b2 ++ ls ++ rest); split; [apply (seek_at _ _ (magic ++ n1 ++ b1 ++ sc ++ n2)); [rewrite R, <- !app_assoc; reflexivity|reflexivity]|apply decode_texts_pack; [apply pv_texts; assumption|assumption]]|].
  split; [assumption|]. split; [|split].
  - unfold find_props. rewrite (seek_at raw 4 magic (n1 ++ b1 ++ sc ++ n2 ++ b2 ++ ls ++ rest)); [|assumption|reflexivity]. cbn [rbind]. rewrite (unpack1_pack _ _ _ (pv_int _) P1). cbn [rbind as_num].
    f_equal. f_equal. rewrite !zlen_app. change (zlen magic) with 4. lia.
  - unfold find_texts. rewrite (seek_at raw _ (magic ++ n1 ++ b1) (sc ++ n2 ++ b2 ++ ls ++ rest)); [|rewrite R, <- !app_assoc; reflexivity|rewrite !zlen_app; lia]. cbn [rbind].
    rewrite (decode_schema_pack _ _ _ _ S F ND). cbn [rbind]. rewrite (unpack1_pack _ _ _ (pv_int _) P2). cbn [rbind as_num]. f_equal. f_equal. f_equal. rewrite !zlen_app. lia.
  - rewrite schema_keys. exact Eq.
Qed.

Definition same_bytes (m m' : mdoc) : Prop := md_raw m' = md_raw m /\ md_ref m' = md_ref m.
Lemma lazy_call h m c : md_raw m = raw -> exists m', call h m c = (after h (full_answer raw (read_as e sch) h c), m', full_answer raw (read_as e sch) h c) /\ same_bytes m m'.
Proof.
  intros Hm. destruct lazy_state as (pr & tx & ls & A & B & C & E1 & E2 & E3).
  assert (P1 : forall m, md_raw m = raw -> parse_state m 1 = (mkMD raw (md_ref m) (Some pr) (md_schema m) (md_texts m) (md_layers m), Ok tt))
    by (intros m' Hr; unfold parse_state; rewrite Hr, E1; reflexivity).
  assert (P2 : forall m, md_raw m = raw -> parse_state m 2 = (mkMD raw (md_ref m) (Some pr) (Some sch) (Some tx) (md_layers m), Ok tt))
    by (intros m' Hr; unfold parse_state; rewrite Hr, E1; cbn [Nat.ltb Nat.leb]; rewrite E2; reflexivity).
  assert (P3 : forall m, md_raw m = raw -> parse_state m 3 = (mkMD raw (md_ref m) (Some pr) (Some sch) (Some tx) (Some ls), Ok tt))
    by (intros m' Hr; unfold parse_state; rewrite Hr, E1; cbn [Nat.ltb Nat.leb]; rewrite E2, E3; reflexivity).
  assert (M1 : forall m ks, md_raw m = raw -> md_properties m ks = (mkMD raw (md_ref m) (Some pr) (md_schema m) (md_texts m) (md_layers m), Ok (project ks (ed_props e)))).
  { intros m' ks Hr. unfold md_properties. rewrite P1 by assumption. destruct (A ks) as (bs & Es & Ed). cbn [rbind got md_prop md_raw]. rewrite Es. cbn [rbind]. rewrite Ed. reflexivity. }
  assert (M2 : forall m, md_raw m = raw -> md_getschema m = (mkMD raw (md_ref m) (Some pr) (Some sch) (Some tx) (md_layers m), Ok sch))
    by (intros m' Hr; unfold md_getschema; rewrite P2 by assumption; reflexivity).
  assert (M3 : forall m ns, md_raw m = raw -> md_gettexts m ns = (mkMD raw (md_ref m) (Some pr) (Some sch) (Some tx) (md_layers m), Ok (match ns with [] => texts_obj (ed_texts e) | _ => MMap [] end))).
  { intros m' ns Hr. unfold md_gettexts. rewrite P2 by assumption. destruct (B ns) as (bs & Es & Ed). cbn [rbind got md_texts md_raw]. rewrite Es. cbn [rbind]. rewrite Ed. reflexivity. }
  destruct c as [ks| |ns|Ls|]; cbn [call full_answer].
  - rewrite M1 by assumption. eexists. split; [reflexivity|split; [symmetry; assumption|reflexivity]].
  - rewrite M2 by assumption. eexists. split; [reflexivity|split; [symmetry; assumption|reflexivity]].
  - rewrite M3 by assumption. eexists. split; [destruct ns; reflexivity|split; [symmetry; assumption|reflexivity]].
  - unfold md_document, md_parse. rewrite P3 by assumption. rewrite M1 by reflexivity. cbn [md_ref md_schema md_texts md_layers]. rewrite M2 by reflexivity. cbn [md_ref md_layers].
    rewrite M3 by reflexivity. cbn [md_ref md_layers md_raw]. rewrite as_texts_map. cbn [rbind got].
    exists (mkMD raw (md_ref m) (Some pr) (Some sch) (Some tx) (Some ls)). split; [|split; [symmetry; assumption|reflexivity]].
    assert (Hml : forall l, mapM (md_layer raw sch ls) l = mapM (fun x => let* d := dgetE (datas (ed_layers e)) x in Ok (x, d)) l).
    { intros l. induction l as [|x l IH]; [reflexivity|]. cbn [mapM]. rewrite (found_layer raw (ed_layers e) sch ls C F x), IH. reflexivity. }
    rewrite Hml. pose proof (parse_layout e sch bytes rest L Pp F ND NT) as Pl. unfold msgpack_decode. fold raw in Pl. rewrite Pl. cbn [after fst project].
    set (want := match Ls with [] => map fst sch | _ => Ls end).
    assert (Hall : all_layers sch Ls = forallb (among (map fst sch)) want && forallb (among want) (map fst sch)).
    { unfold all_layers, want. destruct Ls as [|x Ls]; [|reflexivity]. symmetry. apply andb_true_iff. split; apply forallb_forall; intros x Hx; apply among_In; assumption. }
    cbn [pd_schema read_as]. rewrite Hall. destruct (forallb (among (map fst sch)) want) eqn:Ew.
    + rewrite forallb_forall in Ew. destruct (read_all (ed_layers e) want) as (rd & -> & K & G); [intros x Hx; apply Ew in Hx; apply among_In in Hx; rewrite <- schema_keys; assumption|].
      cbn [rbind andb]. rewrite (look_all (ed_layers e) rd sch schema_keys ND G). rewrite K. destruct (forallb (among want) (map fst sch)); reflexivity.
    + rewrite read_bad; [reflexivity|]. intros G. assert (T : forallb (among (map fst sch)) want = true); [|congruence]. apply forallb_forall. intros x Hx. apply among_In. rewrite schema_keys. auto.
  - eexists. split; [rewrite Hm; reflexivity|split; reflexivity].
Qed.
Lemma lazy_calls cs : forall h m, md_raw m = raw -> calls h m cs = full_answers raw (read_as e sch) h cs.
Proof.
  induction cs as [|c cs IH]; intros h m Hm; [reflexivity|]. cbn [calls full_answers]. destruct (lazy_call h m c Hm) as (m' & -> & [Hr _]). f_equal. apply IH. congruence.
Qed.
End Lazy.

Lemma lazy_equals_full h d ex tv h1 bytes rest props : doc_ok h d -> d_props d = MMap props -> msgpack_encode h d ex tv = (h1, Ok bytes) ->
  exists p, parse (bytes ++ rest) = Ok p /\ pd_props p = d_props d /\
    map (fun kt => (fst kt, List.concat (snd kt))) (pd_texts p) = d_texts d /\
    pd_schema p = map (fun kl => (fst kl, map (fun ft => (fst ft, base_type (snd ft))) (l_fields (h_layer h (snd kl))))) (d_layers d) /\
    forall ref, exists m, md_open (bytes ++ rest) ref = Ok m /\ md_ref m = ref /\ forall cs h0, calls h0 m cs = full_answers (bytes ++ rest) p h0 cs.
Proof.
  intros D Pm H. destruct (msgpack_encode_inv _ _ _ _ _ _ H) as (ed & E & L). exists (read_as ed (schema_of h d)).
  destruct (codec_encode_inv _ _ _ _ _ _ E) as (o & Ec & Ft & Fl & Ep).
  split; [eapply parse_back; eassumption|]. split; [exact Ep|]. split; [|split; [reflexivity|]].
  - cbn [pd_texts read_as]. pose proof (texts_read h d ex tv h1 ed D o Ec Ft) as Ht. clear - Ht. revert Ht. generalize (d_texts d). generalize (ed_texts ed). clear.
    intros es ts Ht. remember (map text_entry es) as tes. revert es Heqtes. induction Ht as [|[k x] [k' y] ts tes (A & B & _) Ht IH]; intros [|[k2 z] es] E; try discriminate; [reflexivity|].
    cbn [map] in *. injection E as E1 E2 E3. rewrite (IH es) by assumption. cbn [fst snd] in *. unfold text_entry in E2. cbn [fst snd] in E2. subst k' y. cbn [fst] in B. subst. reflexivity.
  - intros ref. assert (A1 : python_value (ed_props ed)) by (rewrite Ep; apply (do_props h d D)).
    assert (A2 : ed_props ed = MMap props) by congruence.
    assert (A3 : Forall2 layer_reads (ed_layers ed) (schema_of h d)) by (eapply reads_back; eassumption).
    assert (A4 : NoDup (map el_name (ed_layers ed))) by (rewrite (proj1 (names_back h d ex tv h1 ed D E)); apply (do_layers h d D)).
    assert (A5 : NoDup (dkeys (ed_texts ed))) by (rewrite (proj2 (names_back h d ex tv h1 ed D E)); apply (do_texts h d D)).
    eexists. split; [eapply lazy_open; eassumption|]. split; [reflexivity|]. intros cs h0. eapply lazy_calls; try eassumption. reflexivity.
Qed.
