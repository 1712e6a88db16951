(** Cut and extended input: documents. *)
From Verif Require Import PyBase PyBaseFacts Model_Text Model_Heap Model_Layer Model_Types Model_Msgpack Model_Document Model_Codec
  Spec_Layer Spec_Msgpack Spec_Document Spec_Codec Proof_Msgpack Proof_Layout Proof_Codec2 Spec_Cut Proof_Cut.
Local Open Scope Z_scope.

(** one field of the schema, in steps *)
Definition field_end (name : pystr) (o2 : mobj) (o3 : mobj) (r3 : list N) : res ((pystr * dtype) * list N) :=
  let* ts := as_str o3 in
  let* t := string_type ts in
  match o2 with
  | MBool false => Ok ((name, mkDT KBase t []), r3)
  | MBool true =>
      let* (o4, r4) := unpack1 r3 in
      match o4 with
      | MMap a => let* opts := dict_values a in Ok ((name, mkDT KBase t opts), r4)
      | _ => Err Unmodelled
      end
  | _ => Err Unmodelled
  end.
Definition field_at (bs : list N) : res ((pystr * dtype) * list N) :=
  let* (o1, r1) := unpack1 bs in
  let* name := as_str o1 in
  let* (o2, r2) := unpack1 r1 in
  let* (o3, r3) := unpack1 r2 in field_end name o2 o3 r3.
Lemma cut_field_end m name o2 o3 : cut m (field_end name o2 o3) (field_end name o2 o3).
Proof.
  unfold field_end. apply cut_pure. intros ts. apply cut_pure. intros t. destruct o2 as [|[]| | | | | |]; try apply cut_err; [|apply cut_ret].
  apply (cut_bind m _ _ (fun o4 r4 => match o4 with MMap a => let* opts := dict_values a in Ok ((name, mkDT KBase t opts), r4) | _ => Err Unmodelled end)
                        (fun o4 r4 => match o4 with MMap a => let* opts := dict_values a in Ok ((name, mkDT KBase t opts), r4) | _ => Err Unmodelled end) (cut_unpack1 m)).
  intros o4. destruct o4; try apply cut_err. apply cut_pure. intros; apply cut_ret.
Qed.
Lemma ext_field_end name o2 o3 : extends (field_end name o2 o3) (field_end name o2 o3).
Proof.
  unfold field_end. apply ext_pure. intros ts. apply ext_pure. intros t. destruct o2 as [|[]| | | | | |]; try apply ext_err; [|apply ext_ret].
  apply (ext_bind _ _ (fun o4 r4 => match o4 with MMap a => let* opts := dict_values a in Ok ((name, mkDT KBase t opts), r4) | _ => Err Unmodelled end)
                      (fun o4 r4 => match o4 with MMap a => let* opts := dict_values a in Ok ((name, mkDT KBase t opts), r4) | _ => Err Unmodelled end) ext_unpack1).
  intros o4. destruct o4; try apply ext_err. apply ext_pure. intros; apply ext_ret.
Qed.
Lemma cut_field m : cut m read_field read_field.
Proof.
  apply (cut_bind m _ _ (fun o1 r1 => let* name := as_str o1 in let* (o2, r2) := unpack1 r1 in let* (o3, r3) := unpack1 r2 in field_end name o2 o3 r3)
                        (fun o1 r1 => let* name := as_str o1 in let* (o2, r2) := unpack1 r1 in let* (o3, r3) := unpack1 r2 in field_end name o2 o3 r3) (cut_unpack1 m)).
  intros o1. apply cut_pure. intros name.
  apply (cut_bind m _ _ (fun o2 r2 => let* (o3, r3) := unpack1 r2 in field_end name o2 o3 r3) (fun o2 r2 => let* (o3, r3) := unpack1 r2 in field_end name o2 o3 r3) (cut_unpack1 m)).
  intros o2. apply (cut_bind m _ _ (field_end name o2) (field_end name o2) (cut_unpack1 m)). intros o3. apply cut_field_end.
Qed.
Lemma ext_field : extends read_field read_field.
Proof.
  apply (ext_bind _ _ (fun o1 r1 => let* name := as_str o1 in let* (o2, r2) := unpack1 r1 in let* (o3, r3) := unpack1 r2 in field_end name o2 o3 r3)
                      (fun o1 r1 => let* name := as_str o1 in let* (o2, r2) := unpack1 r1 in let* (o3, r3) := unpack1 r2 in field_end name o2 o3 r3) ext_unpack1).
  intros o1. apply ext_pure. intros name.
  apply (ext_bind _ _ (fun o2 r2 => let* (o3, r3) := unpack1 r2 in field_end name o2 o3 r3) (fun o2 r2 => let* (o3, r3) := unpack1 r2 in field_end name o2 o3 r3) ext_unpack1).
  intros o2. apply (ext_bind _ _ (field_end name o2) (field_end name o2) ext_unpack1). intros o3. apply ext_field_end.
Qed.
Lemma cut_fields m n : forall acc, cut m (read_fields n acc) (read_fields n acc).
Proof.
  induction n as [|n IH]; intros acc; [apply cut_ret|].
  apply (cut_bind m _ _ (fun ft r => if dmem acc (fst ft) then Err ValueError else read_fields n (acc ++ [ft]) r)
                        (fun ft r => if dmem acc (fst ft) then Err ValueError else read_fields n (acc ++ [ft]) r) (cut_field m)).
  intros ft. apply cut_if; [apply cut_err|apply IH].
Qed.
Lemma ext_fields n : forall acc, extends (read_fields n acc) (read_fields n acc).
Proof.
  induction n as [|n IH]; intros acc; [apply ext_ret|].
  apply (ext_bind _ _ (fun ft r => if dmem acc (fst ft) then Err ValueError else read_fields n (acc ++ [ft]) r)
                      (fun ft r => if dmem acc (fst ft) then Err ValueError else read_fields n (acc ++ [ft]) r) ext_field).
  intros ft. apply ext_if; [apply ext_err|apply IH].
Qed.
Lemma cut_schemas m names : cut m (read_schemas names) (read_schemas names).
Proof.
  induction names as [|x names IH]; [apply cut_ret|]. cbn [read_schemas].
  apply (cut_bind m _ _ (fun o r1 => let* k := as_num o in let* (fs, r2) := read_fields (Z.to_nat k) [] r1 in let* (q, r3) := read_schemas names r2 in Ok ((x, fs) :: q, r3))
                        (fun o r1 => let* k := as_num o in let* (fs, r2) := read_fields (Z.to_nat k) [] r1 in let* (q, r3) := read_schemas names r2 in Ok ((x, fs) :: q, r3)) (cut_unpack1 m)).
  intros o. apply cut_pure. intros k.
  apply (cut_bind m _ _ (fun fs r2 => let* (q, r3) := read_schemas names r2 in Ok ((x, fs) :: q, r3)) (fun fs r2 => let* (q, r3) := read_schemas names r2 in Ok ((x, fs) :: q, r3)) (cut_fields m _ _)).
  intros fs. apply (cut_bind m _ _ (fun q r3 => Ok ((x, fs) :: q, r3)) (fun q r3 => Ok ((x, fs) :: q, r3)) IH). intros q. apply cut_ret.
Qed.
Lemma ext_schemas names : extends (read_schemas names) (read_schemas names).
Proof.
  induction names as [|x names IH]; [apply ext_ret|]. cbn [read_schemas].
  apply (ext_bind _ _ (fun o r1 => let* k := as_num o in let* (fs, r2) := read_fields (Z.to_nat k) [] r1 in let* (q, r3) := read_schemas names r2 in Ok ((x, fs) :: q, r3))
                      (fun o r1 => let* k := as_num o in let* (fs, r2) := read_fields (Z.to_nat k) [] r1 in let* (q, r3) := read_schemas names r2 in Ok ((x, fs) :: q, r3)) ext_unpack1).
  intros o. apply ext_pure. intros k.
  apply (ext_bind _ _ (fun fs r2 => let* (q, r3) := read_schemas names r2 in Ok ((x, fs) :: q, r3)) (fun fs r2 => let* (q, r3) := read_schemas names r2 in Ok ((x, fs) :: q, r3)) (ext_fields _ _)).
  intros fs. apply (ext_bind _ _ (fun q r3 => Ok ((x, fs) :: q, r3)) (fun q r3 => Ok ((x, fs) :: q, r3)) IH). intros q. apply ext_ret.
Qed.
Lemma cut_schema m : cut m decode_schema decode_schema.
Proof.
  apply (cut_bind m _ _ (fun o r => let* names := as_strs o in if names_nodup names then read_schemas names r else Err Unmodelled)
                        (fun o r => let* names := as_strs o in if names_nodup names then read_schemas names r else Err Unmodelled) (cut_unpack1 m)).
  intros o. apply cut_pure. intros names. apply cut_if; [apply cut_schemas|apply cut_err].
Qed.
Lemma ext_schema : extends decode_schema decode_schema.
Proof.
  apply (ext_bind _ _ (fun o r => let* names := as_strs o in if names_nodup names then read_schemas names r else Err Unmodelled)
                      (fun o r => let* names := as_strs o in if names_nodup names then read_schemas names r else Err Unmodelled) ext_unpack1).
  intros o. apply ext_pure. intros names. apply ext_if; [apply ext_schemas|apply ext_err].
Qed.
Definition column_end (r : dict dtype) (o1 o2 : mobj) (r2 : list N) : res (list (list mobj) * list N) :=
  match o2 with MArr col => let* (q, r3) := read_columns r r2 in Ok (col :: q, r3) | _ => Err Unmodelled end.
Lemma cut_columns m fs : cut m (read_columns fs) (read_columns fs).
Proof.
  induction fs as [|ft fs IH]; [apply cut_ret|]. cbn [read_columns].
  apply (cut_bind m _ _ (fun o1 r1 => if truthy o1 then Err NotImplementedError else let* (o2, r2) := unpack1 r1 in column_end fs o1 o2 r2)
                        (fun o1 r1 => if truthy o1 then Err NotImplementedError else let* (o2, r2) := unpack1 r1 in column_end fs o1 o2 r2) (cut_unpack1 m)).
  intros o1. apply cut_if; [apply cut_err|]. apply (cut_bind m _ _ (column_end fs o1) (column_end fs o1) (cut_unpack1 m)). intros o2. unfold column_end.
  destruct o2; try apply cut_err. apply (cut_bind m _ _ (fun q r3 => Ok (l :: q, r3)) (fun q r3 => Ok (l :: q, r3)) IH). intros q. apply cut_ret.
Qed.
Lemma ext_columns fs : extends (read_columns fs) (read_columns fs).
Proof.
  induction fs as [|ft fs IH]; [apply ext_ret|]. cbn [read_columns].
  apply (ext_bind _ _ (fun o1 r1 => if truthy o1 then Err NotImplementedError else let* (o2, r2) := unpack1 r1 in column_end fs o1 o2 r2)
                      (fun o1 r1 => if truthy o1 then Err NotImplementedError else let* (o2, r2) := unpack1 r1 in column_end fs o1 o2 r2) ext_unpack1).
  intros o1. apply ext_if; [apply ext_err|]. apply (ext_bind _ _ (column_end fs o1) (column_end fs o1) ext_unpack1). intros o2. unfold column_end.
  destruct o2; try apply ext_err. apply (ext_bind _ _ (fun q r3 => Ok (l :: q, r3)) (fun q r3 => Ok (l :: q, r3)) IH). intros q. apply ext_ret.
Qed.
Lemma cut_layer m fs : cut m (read_layer fs) (read_layer fs).
Proof.
  apply (cut_bind m _ _ (fun o r => let* n := as_num o in let* (cols, r1) := read_columns fs r in Ok ((n, cols), r1)) (fun o r => let* n := as_num o in let* (cols, r1) := read_columns fs r in Ok ((n, cols), r1)) (cut_unpack1 m)).
  intros o. apply cut_pure. intros n. apply (cut_bind m _ _ (fun cols r1 => Ok ((n, cols), r1)) (fun cols r1 => Ok ((n, cols), r1)) (cut_columns m fs)). intros; apply cut_ret.
Qed.
Lemma ext_layer fs : extends (read_layer fs) (read_layer fs).
Proof.
  apply (ext_bind _ _ (fun o r => let* n := as_num o in let* (cols, r1) := read_columns fs r in Ok ((n, cols), r1)) (fun o r => let* n := as_num o in let* (cols, r1) := read_columns fs r in Ok ((n, cols), r1)) ext_unpack1).
  intros o. apply ext_pure. intros n. apply (ext_bind _ _ (fun cols r1 => Ok ((n, cols), r1)) (fun cols r1 => Ok ((n, cols), r1)) (ext_columns fs)). intros; apply ext_ret.
Qed.
Lemma cut_layers m sch : cut m (read_layers sch) (read_layers sch).
Proof.
  induction sch as [|[k fs] sch IH]; [apply cut_ret|]. cbn [read_layers].
  apply (cut_bind m _ _ (fun (_ : unit) r1 => let* (nc, r2) := read_layer fs r1 in let* (q, r3) := read_layers sch r2 in Ok (nc :: q, r3))
                        (fun (_ : unit) r1 => let* (nc, r2) := read_layer fs r1 in let* (q, r3) := read_layers sch r2 in Ok (nc :: q, r3)) (cut_skip1 m)).
  intros _. apply (cut_bind m _ _ (fun nc r2 => let* (q, r3) := read_layers sch r2 in Ok (nc :: q, r3)) (fun nc r2 => let* (q, r3) := read_layers sch r2 in Ok (nc :: q, r3)) (cut_layer m fs)).
  intros nc. apply (cut_bind m _ _ (fun q r3 => Ok (nc :: q, r3)) (fun q r3 => Ok (nc :: q, r3)) IH). intros; apply cut_ret.
Qed.
Lemma ext_layers sch : extends (read_layers sch) (read_layers sch).
Proof.
  induction sch as [|[k fs] sch IH]; [apply ext_ret|]. cbn [read_layers].
  apply (ext_bind _ _ (fun (_ : unit) r1 => let* (nc, r2) := read_layer fs r1 in let* (q, r3) := read_layers sch r2 in Ok (nc :: q, r3))
                      (fun (_ : unit) r1 => let* (nc, r2) := read_layer fs r1 in let* (q, r3) := read_layers sch r2 in Ok (nc :: q, r3)) ext_skip1).
  intros _. apply (ext_bind _ _ (fun nc r2 => let* (q, r3) := read_layers sch r2 in Ok (nc :: q, r3)) (fun nc r2 => let* (q, r3) := read_layers sch r2 in Ok (nc :: q, r3)) (ext_layer fs)).
  intros nc. apply (ext_bind _ _ (fun q r3 => Ok (nc :: q, r3)) (fun q r3 => Ok (nc :: q, r3)) IH). intros; apply ext_ret.
Qed.
(** a document after the magic, with the rest of the bytes *)
Definition parse_end (props : mobj) (sch : list (pystr * dict dtype)) (tx : mobj) (r5 : list N) : res (pdoc * list N) :=
  let* texts := as_texts tx in let* (ls, r) := read_layers sch r5 in Ok (mkPD props sch texts ls, r).
Definition parse_rest (bs : list N) : res (pdoc * list N) :=
  let* (_, r1) := skip1 bs in
  let* (props, r2) := unpack1 r1 in
  let* (sch, r3) := decode_schema r2 in
  let* (_, r4) := skip1 r3 in
  let* (tx, r5) := unpack1 r4 in parse_end props sch tx r5.
Lemma parse_eq bs : parse bs = if list_eqb N.eqb (firstn 4 bs) magic then let* (p, _) := parse_rest (skipn 4 bs) in Ok p else Err ValueError.
Proof.
  unfold parse, parse_rest, parse_end. destruct (list_eqb _ _ _); [|reflexivity].
  destruct (skip1 _) as [[? r1]|]; cbn [rbind]; [|reflexivity]. destruct (unpack1 r1) as [[props r2]|]; cbn [rbind]; [|reflexivity].
  destruct (decode_schema r2) as [[sch r3]|]; cbn [rbind]; [|reflexivity]. destruct (skip1 r3) as [[? r4]|]; cbn [rbind]; [|reflexivity].
  destruct (unpack1 r4) as [[tx r5]|]; cbn [rbind]; [|reflexivity]. destruct (as_texts tx); cbn [rbind]; [|reflexivity]. destruct (read_layers sch r5) as [[ls r]|]; reflexivity.
Qed.
Lemma cut_parse m : cut m parse_rest parse_rest.
Proof.
  unfold parse_rest.
  apply (cut_bind m _ _ (fun (_ : unit) r1 => let* (props, r2) := unpack1 r1 in let* (sch, r3) := decode_schema r2 in let* (_, r4) := skip1 r3 in let* (tx, r5) := unpack1 r4 in parse_end props sch tx r5)
                        (fun (_ : unit) r1 => let* (props, r2) := unpack1 r1 in let* (sch, r3) := decode_schema r2 in let* (_, r4) := skip1 r3 in let* (tx, r5) := unpack1 r4 in parse_end props sch tx r5) (cut_skip1 m)). intros _.
  apply (cut_bind m _ _ (fun props r2 => let* (sch, r3) := decode_schema r2 in let* (_, r4) := skip1 r3 in let* (tx, r5) := unpack1 r4 in parse_end props sch tx r5)
                        (fun props r2 => let* (sch, r3) := decode_schema r2 in let* (_, r4) := skip1 r3 in let* (tx, r5) := unpack1 r4 in parse_end props sch tx r5) (cut_unpack1 m)). intros props.
  apply (cut_bind m _ _ (fun sch r3 => let* (_, r4) := skip1 r3 in let* (tx, r5) := unpack1 r4 in parse_end props sch tx r5)
                        (fun sch r3 => let* (_, r4) := skip1 r3 in let* (tx, r5) := unpack1 r4 in parse_end props sch tx r5) (cut_schema m)). intros sch.
  apply (cut_bind m _ _ (fun (_ : unit) r4 => let* (tx, r5) := unpack1 r4 in parse_end props sch tx r5) (fun (_ : unit) r4 => let* (tx, r5) := unpack1 r4 in parse_end props sch tx r5) (cut_skip1 m)). intros _.
  apply (cut_bind m _ _ (parse_end props sch) (parse_end props sch) (cut_unpack1 m)). intros tx. unfold parse_end. apply cut_pure. intros texts.
  apply (cut_bind m _ _ (fun ls r => Ok (mkPD props sch texts ls, r)) (fun ls r => Ok (mkPD props sch texts ls, r)) (cut_layers m sch)). intros; apply cut_ret.
Qed.
Lemma ext_parse : extends parse_rest parse_rest.
Proof.
  unfold parse_rest.
  apply (ext_bind _ _ (fun (_ : unit) r1 => let* (props, r2) := unpack1 r1 in let* (sch, r3) := decode_schema r2 in let* (_, r4) := skip1 r3 in let* (tx, r5) := unpack1 r4 in parse_end props sch tx r5)
                      (fun (_ : unit) r1 => let* (props, r2) := unpack1 r1 in let* (sch, r3) := decode_schema r2 in let* (_, r4) := skip1 r3 in let* (tx, r5) := unpack1 r4 in parse_end props sch tx r5) ext_skip1). intros _.
  apply (ext_bind _ _ (fun props r2 => let* (sch, r3) := decode_schema r2 in let* (_, r4) := skip1 r3 in let* (tx, r5) := unpack1 r4 in parse_end props sch tx r5)
                      (fun props r2 => let* (sch, r3) := decode_schema r2 in let* (_, r4) := skip1 r3 in let* (tx, r5) := unpack1 r4 in parse_end props sch tx r5) ext_unpack1). intros props.
  apply (ext_bind _ _ (fun sch r3 => let* (_, r4) := skip1 r3 in let* (tx, r5) := unpack1 r4 in parse_end props sch tx r5)
                      (fun sch r3 => let* (_, r4) := skip1 r3 in let* (tx, r5) := unpack1 r4 in parse_end props sch tx r5) ext_schema). intros sch.
  apply (ext_bind _ _ (fun (_ : unit) r4 => let* (tx, r5) := unpack1 r4 in parse_end props sch tx r5) (fun (_ : unit) r4 => let* (tx, r5) := unpack1 r4 in parse_end props sch tx r5) ext_skip1). intros _.
  apply (ext_bind _ _ (parse_end props sch) (parse_end props sch) ext_unpack1). intros tx. unfold parse_end. apply ext_pure. intros texts.
  apply (ext_bind _ _ (fun ls r => Ok (mkPD props sch texts ls, r)) (fun ls r => Ok (mkPD props sch texts ls, r)) (ext_layers sch)). intros; apply ext_ret.
Qed.

(** ** documents *)
Lemma magic_short bs : (length bs < 4)%nat -> list_eqb N.eqb (firstn 4 bs) magic = false.
Proof.
  intros L. destruct (list_eqb_spec N.eqb N.eqb_spec (firstn 4 bs) magic) as [E|]; [|reflexivity].
  apply (f_equal (@length N)) in E. rewrite firstn_length in E. change (length magic) with 4%nat in E. lia.
Qed.
Theorem decode_extends h bs rest h2 d : msgpack_decode h bs = (h2, Ok d) -> msgpack_decode h (bs ++ rest) = (h2, Ok d).
Proof.
  unfold msgpack_decode. rewrite !parse_eq. destruct (Nat.ltb_spec (length bs) 4) as [L|L]; [rewrite magic_short by assumption; cbv iota; intros Q; discriminate Q|].
  rewrite firstn_app, skipn_app. replace (4 - length bs)%nat with 0%nat by lia. change (firstn 0 rest) with (@nil N). change (skipn 0 rest) with rest. rewrite app_nil_r. destruct (list_eqb _ _ _); cbv iota; [|discriminate].
  destruct (parse_rest (skipn 4 bs)) as [[p r]|] eqn:E; cbn [rbind]; [|intros Q; discriminate Q]. rewrite (ext_parse _ rest _ _ E). auto.
Qed.
(** everything after the magic is read, and nothing more *)
Lemma layout_all e sch bytes : layout e = Ok bytes -> python_value (ed_props e) -> Forall2 layer_reads (ed_layers e) sch ->
  NoDup (map el_name (ed_layers e)) -> NoDup (dkeys (ed_texts e)) -> firstn 4 bytes = magic /\ parse_rest (skipn 4 bytes) = Ok (read_as e sch, []).
Proof.
  intros H Pp F ND NT. apply layout_inv in H. destruct H as (n1 & k1 & b1 & sc & n2 & k2 & b2 & ls & P1 & _ & Q1 & S & P2 & _ & Q2 & L & ->).
  split; [reflexivity|]. replace (skipn 4 (magic ++ n1 ++ b1 ++ sc ++ n2 ++ b2 ++ ls)) with (n1 ++ b1 ++ sc ++ n2 ++ b2 ++ ls) by reflexivity. unfold parse_rest, parse_end.
  rewrite (skip1_pack _ _ _ (pv_int _) P1). cbn [rbind]. rewrite (unpack1_pack _ _ _ Pp Q1). cbn [rbind].
  rewrite (decode_schema_pack _ _ _ _ S F ND). cbn [rbind]. rewrite (skip1_pack _ _ _ (pv_int _) P2). cbn [rbind].
  rewrite (unpack1_pack _ _ _ (pv_texts _ NT) Q2). cbn [rbind]. rewrite as_texts_map. cbn [rbind].
  rewrite <- (app_nil_r ls). rewrite (read_layers_pack _ _ _ [] L F). reflexivity.
Qed.
Theorem decode_cut h d ex tv h1 bytes b1 b2 h0 : doc_ok h d -> msgpack_encode h d ex tv = (h1, Ok bytes) -> bytes = b1 ++ b2 -> b2 <> [] ->
  exists e, msgpack_decode h0 b1 = (h0, Err e) /\ (if (length b1 <? 4)%nat then e = ValueError else want e).
Proof.
  intros D H -> NE. destruct (msgpack_encode_inv _ _ _ _ _ _ H) as (ed & E & L).
  destruct (layout_all ed (schema_of h d) (b1 ++ b2) L) as [Mg P].
  - destruct (codec_encode_inv _ _ _ _ _ _ E) as (o & _ & _ & _ & ->). apply (do_props h d D).
  - eapply reads_back; eassumption.
  - rewrite (proj1 (names_back h d ex tv h1 ed D E)). apply (do_layers h d D).
  - rewrite (proj2 (names_back h d ex tv h1 ed D E)). apply (do_texts h d D).
  - unfold msgpack_decode. rewrite parse_eq. destruct (Nat.ltb_spec (length b1) 4) as [Ls|Ls].
    + rewrite magic_short by assumption. exists ValueError. auto.
    + rewrite firstn_app in Mg. rewrite skipn_app in P. replace (4 - length b1)%nat with 0%nat in * by lia. change (firstn 0 b2) with (@nil N) in Mg. change (skipn 0 b2) with b2 in P. rewrite app_nil_r in Mg. rewrite Mg.
      change (list_eqb N.eqb magic magic) with true. cbv iota.
      destruct (cut_parse (S (length (skipn 4 b1))) _ _ _ _ (Nat.lt_succ_diag_r _) P) as [(r1 & Er & _)|(b3 & e & _ & _ & W & Ee)].
      * symmetry in Er. apply app_eq_nil in Er. destruct Er; contradiction.
      * rewrite Ee. exists e. auto.
Qed.
