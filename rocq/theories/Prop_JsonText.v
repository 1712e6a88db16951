(** C67 the text of JSON, C68 JSON texts of documents. *)
From Verif Require Import PyBase PyBaseFacts Model_Text Model_Heap Model_Layer Model_Types Model_Msgpack Model_Document Model_Codec Model_Json Model_JsonText.
From Verif Require Import Spec_Layer Spec_History Spec_Types Spec_Msgpack Spec_Document Spec_Codec Spec_Printout Spec_JsonText Spec_JsonForm Proof_JsonForm Proof_JsonText2 Proof_JsonText3 Proof_JsonText4 Proof_Codec6 Prop_Document Prop_Codec.
From Verif Require Model_Printout Proof_Printout.
Local Open Scope N_scope.

(** ** C67 *)
(** json.loads reads exactly the texts of the grammar, with blanks around them, and gives the value that the grammar gives. *)
Theorem C67_loads : forall fparse x o, loads fparse x = Ok o <-> exists w t w', x = w ++ t ++ w' /\ blank w /\ blank w' /\ json fparse t o.
Proof. exact loads_iff. Qed.
Print Assumptions C67_loads.
(** Any other text is a ValueError. *)
Theorem C67_refuses : forall fparse x e, loads fparse x = Err e -> e = ValueError.
Proof. exact loads_error. Qed.
Print Assumptions C67_refuses.
(** A text stands for at most one value. *)
Theorem C67_unique : forall fparse t o o', json fparse t o -> json fparse t o' -> o = o'.
Proof. exact json_unique. Qed.
Print Assumptions C67_unique.
(** json.dumps writes everything but bytes, which are a TypeError wherever they are. *)
Theorem C67_bytes : forall frepr o, (no_bytes o /\ exists t, dumps frepr o = Ok t) \/ (~ no_bytes o /\ dumps frepr o = Err TypeError).
Proof. exact dumps_bytes. Qed.
Print Assumptions C67_bytes.
(** What it writes is printable ASCII, ... *)
Theorem C67_ascii : forall frepr fparse o, floats_ok frepr fparse -> python_value o -> forall t, dumps frepr o = Ok t -> printable t.
Proof. exact dumps_printable. Qed.
Print Assumptions C67_ascii.
(** ... is JSON for the value, ... *)
Theorem C67_dumps : forall frepr fparse o, floats_ok frepr fparse -> json_safe o -> exists t, dumps frepr o = Ok t /\ json fparse t o.
Proof. exact dumps_json. Qed.
Print Assumptions C67_dumps.
(** ... and comes back.  The condition is needed: strings with a high surrogate before a low one, and
    NaN with other bits than the usual do not come back, see C67_surrogates_refuted and C67_nan_refuted. *)
Theorem C67_round : forall frepr fparse o, floats_ok frepr fparse -> json_safe o -> exists t, dumps frepr o = Ok t /\ loads fparse t = Ok o.
Proof. exact dumps_loads. Qed.
Print Assumptions C67_round.
(** Of the many texts of a value it is this one. *)
Theorem C67_form : forall frepr o, of_points o -> forall t, dumps frepr o = Ok t <-> form frepr o t.
Proof. exact dumps_form. Qed.
Print Assumptions C67_form.

(** a float repr and its inverse (the bits in decimal, then ".0") *)
Definition bits_repr (b : N) : pystr := Model_Printout.str_int (Z.of_N b) ++ s ".0".
Definition bits_parse (x : pystr) : N := Z.to_N (read_int (fst (take_digits x))).
Lemma bits_ok : floats_ok bits_repr bits_parse.
Proof.
  intros b _. split.
  - exists (Model_Printout.str_int (Z.of_N b)), (Z.of_N b), (s ".0"), []. split; [apply int_json|]. split; [|split; [left; reflexivity|split; [discriminate|rewrite app_nil_r; reflexivity]]].
    right. exists [48]. split; [discriminate|]. split; [|reflexivity]. constructor; [unfold is_digit; lia|constructor].
  - unfold bits_parse, bits_repr. destruct (Proof_Printout.str_int_ok (Z.of_N b)) as (A & B & _); [lia|].
    rewrite (Proof_JsonText.digits_join _ (s ".0") B) by (cbn; discriminate || reflexivity). cbn [fst]. rewrite Proof_JsonText.read_decimal, A. apply N2Z.id.
Qed.
(** The two characters D83D DE00 come back as the one character 1F600. *)
Theorem C67_surrogates_refuted : exists o t o', dumps bits_repr o = Ok t /\ loads bits_parse t = Ok o' /\ python_value o /\ o' <> o.
Proof. exists (MStr [0xD83D; 0xDE00]). eexists. exists (MStr [0x1F600]). split; [vm_compute; reflexivity|]. split; [vm_compute; reflexivity|]. split; [constructor|discriminate]. Qed.
Print Assumptions C67_surrogates_refuted.
Theorem C67_nan_refuted : exists b t b', dumps bits_repr (MFloat b) = Ok t /\ loads bits_parse t = Ok (MFloat b') /\ python_value (MFloat b) /\ b' <> b.
Proof. exists 0xfff8000000000000. eexists. eexists. split; [vm_compute; reflexivity|]. split; [vm_compute; reflexivity|]. split; [constructor; reflexivity|discriminate]. Qed.
Print Assumptions C67_nan_refuted.
Definition sample_value : mobj :=
  MMap [(s "a""b", MArr [MInt (-12); MFloat 4607182418800017408; MFloat 0x7ff0000000000000; MNil; MBool true]); ([233; 0x1F600; 10], MStr [9; 0xDE00; 127]); (s "", MMap []); (s "e", MArr [])].
Example C67_form_case : of_points sample_value /\ form bits_repr sample_value
  (s "{""a\""b"": [-12, 4607182418800017408.0, Infinity, null, true], ""\u00e9\ud83d\ude00\n"": ""\t\ude00\u007f"", """": {}, ""e"": []}") /\
  ~ form bits_repr (MStr [233]) (s """\u00E9""").
Proof.
  assert (P : of_points sample_value) by (unfold sample_value; repeat match goal with |- of_points _ => constructor | |- points _ => constructor | |- Forall _ _ => constructor | |- (_ < _)%N => reflexivity end).
  split; [exact P|]. split; [apply (dumps_form bits_repr _ P); vm_compute; reflexivity|]. intros H. apply dumps_form in H; [vm_compute in H; discriminate H|]. repeat constructor.
Qed.
Example C67_case : floats_ok bits_repr bits_parse /\ json_safe sample_value /\ python_value sample_value /\
  dumps bits_repr sample_value = Ok (s "{""a\""b"": [-12, 4607182418800017408.0, Infinity, null, true], ""\u00e9\ud83d\ude00\n"": ""\t\ude00\u007f"", """": {}, ""e"": []}") /\
  loads bits_parse (s "  { ""a"" : [ 1 ,-0,2.5e-3, ""\u0041\/"" ] , ""b"":null,""a"":false } ") = Ok (MMap [(s "a", MBool false); (s "b", MNil)]) /\
  map (fun x => loads bits_parse x) [s "[1,]"; s "01"; s "{1: 2}"; s "'a'"; s "[1 2]"; s """\x"""; s "nul"; s ""; s "1 1"] = repeat (Err ValueError) 9 /\
  dumps bits_repr (MArr [MInt 1; MMap [(s "k", MBin [1])]]) = Err TypeError.
Proof.
  split; [exact bits_ok|]. split; [|split; [|vm_compute; repeat split]].
  - assert (T : forall x, forallb (fun c => (c <? 0x110000) && negb (is_high c)) x = true -> text_safe x).
    { induction x as [|c x IH]; intros H; [constructor|]. cbn [forallb] in H. apply andb_prop in H. destruct H as [H1 H2]. apply andb_prop in H1. destruct H1 as [H1 H3]. apply N.ltb_lt in H1. constructor; [exact H1| |apply IH, H2].
      intros [Hh _]. apply Proof_JsonText.high_iff in Hh. rewrite Hh in H3. discriminate. }
    constructor.
    + apply nodupb_ok. vm_compute. reflexivity.
    + cbn [map fst]. repeat (apply Forall_cons; [apply T; vm_compute; reflexivity|]). constructor.
    + cbn [map snd]. repeat apply Forall_cons; [| | | |constructor].
      * constructor. repeat apply Forall_cons; [constructor|constructor; left; split; [reflexivity|vm_compute; discriminate]|constructor; right; right; left; reflexivity|constructor|constructor|constructor].
      * constructor. apply T. vm_compute. reflexivity.
      * constructor; constructor.
      * constructor. constructor.
  - constructor; [apply nodupb_ok; vm_compute; reflexivity|]. cbn [map snd]. repeat apply Forall_cons; [| | | |constructor].
    + constructor. repeat apply Forall_cons; [constructor|constructor; reflexivity|constructor; reflexivity|constructor|constructor|constructor].
    + constructor.
    + constructor; constructor.
    + constructor. constructor.
Qed.

(** ** C68 *)
(** JsonCodec.decode(JsonCodec.encode(doc)) is the same document.  Missing from the full statement: documents with bytes, see C68_bytes, and the strings of C67. *)
Theorem C68_round_partial : forall frepr fparse h d h1 t h0, floats_ok frepr fparse -> doc_ok h d -> doc_json h d -> json_dumps frepr h d = (h1, Ok t) -> wf h0 ->
  exists h2 d', json_loads fparse h0 t = (h2, Ok d') /\ same_doc h d h2 d' /\ wf h2 /\ untouched h0 h2.
Proof. exact text_round. Qed.
Print Assumptions C68_round_partial.
Theorem C68_encodes : forall frepr fparse h d, floats_ok frepr fparse -> doc_valid h d -> doc_json h d -> exists h1 t, json_dumps frepr h d = (h1, Ok t).
Proof. exact text_total. Qed.
Print Assumptions C68_encodes.
(** Encoding the decoded document gives the same text again. *)
Theorem C68_stable_partial : forall frepr fparse h d h1 t h0, floats_ok frepr fparse -> doc_ok h d -> doc_json h d -> json_dumps frepr h d = (h1, Ok t) -> wf h0 ->
  exists h2 d' h3, json_loads fparse h0 t = (h2, Ok d') /\ json_dumps frepr h2 d' = (h3, Ok t).
Proof. exact text_stable. Qed.
Print Assumptions C68_stable_partial.
(** Both formats decode to the very same document. *)
Theorem C68_msgpack_partial : forall frepr fparse h d h1 t h2 bytes ex tv rest h0, floats_ok frepr fparse -> doc_ok h d -> doc_json h d -> json_dumps frepr h d = (h1, Ok t) -> msgpack_encode h d ex tv = (h2, Ok bytes) ->
  json_loads fparse h0 t = msgpack_decode h0 (bytes ++ rest).
Proof. exact text_msgpack. Qed.
Print Assumptions C68_msgpack_partial.
(** A document with bytes in a field has no JSON text. *)
Theorem C68_bytes : forall frepr h d k l n f t x, doc_valid h d -> doc_node h d k l n -> dget (l_fields (h_layer h l)) f = Some t -> dget (n_fieldsof h n) f = Some (VBytes x) ->
  exists h1, json_dumps frepr h d = (h1, Err TypeError).
Proof. exact text_bytes. Qed.
Print Assumptions C68_bytes.
(** decode: a ValueError for what is not JSON, a DataError for JSON without the header; nothing is made. *)
Theorem C68_refuses : forall fparse h x,
  ((forall o, ~ exists w t w', x = w ++ t ++ w' /\ blank w /\ blank w' /\ json fparse t o) -> json_loads fparse h x = (h, Err ValueError)) /\
  (forall o w t w', x = w ++ t ++ w' -> blank w -> blank w' -> json fparse t o -> (forall dict, o = MMap dict -> ~ In (s "DM10") (map fst dict)) -> json_loads fparse h x = (h, Err DataError)).
Proof. exact text_refused. Qed.
Print Assumptions C68_refuses.

Lemma sample_json : doc_json doc_heap sample_doc.
Proof.
  assert (T : forall x, forallb (fun c => (c <? 128)%N) x = true -> text_safe x) by exact ascii_safe. split.
  - apply lit_map; [reflexivity|]. constructor; [constructor|constructor].
  - intros k t [[= <- <-]|[]]. split; apply T; reflexivity.
  - intros k l [[= <- <-]|[[= <- <-]|[]]]; apply T; reflexivity.
  - intros k f t (l & [[= <- <-]|[[= <- <-]|[]]] & Hf); vm_compute in Hf;
    (repeat (destruct Hf as [[= <- <-]|Hf]; [split; [apply T; reflexivity|vm_compute; intros o v Hov; repeat (destruct Hov as [[= <- <-]|Hov]; [split; [apply T; reflexivity|first [exact I|apply T; reflexivity]]|]); destruct Hov]|])); destruct Hf.
  - intros k l n f t v Hn Ht Hv. destruct (Prop_Codec.sample_value k l n f v t Hn Hv Ht) as [[-> ->]|[[-> ->]|[[-> ->]|[[-> ->]|[[-> ->]|[[-> ->]|[-> ->]]]]]]]; try exact I. apply T. reflexivity.
Qed.
(** one node with two bytes *)
Definition bin_heap : heap := exec_all Z.leb empty_heap [OLayer (s "b") [(s "d", T_binary)]; OAdd 0%nat [(s "d", VBytes [1; 255])]].
Definition bin_doc : doc := mkDoc (MMap []) [] [(s "b", 0%nat)].
Lemma bin_valid : doc_valid bin_heap bin_doc.
Proof.
  assert (Nd : forall k l n, doc_node bin_heap bin_doc k l n -> k = s "b" /\ l = 0%nat /\ n = 0%nat).
  { intros k l n [[[= <- <-]|[]] Hn]. vm_compute in Hn. destruct Hn as [[= <-]|[]]. auto. }
  assert (Dc : forall k f t, declared bin_heap bin_doc k f t -> f = s "d" /\ t = T_binary).
  { intros k f t (l & [[= <- <-]|[]] & Hf). vm_compute in Hf. destruct Hf as [[= <- <-]|[]]. auto. }
  split; [split|..].
  - apply Proof_Layer4.ops_ok_wf, Proof_Layer4.ops_okb_sound. vm_compute. reflexivity.
  - intros k l [[= <- <-]|[]]. vm_compute. auto.
  - constructor.
  - repeat constructor; simpl; tauto.
  - repeat constructor.
  - intros k f t Hd. destruct (Dc _ _ _ Hd) as [-> ->]. split; [discriminate|]. split; [discriminate|]. split; [split; [simpl; intuition discriminate|discriminate]|]. split; [vm_compute; repeat constructor; simpl; tauto|].
    vm_compute. intros o v Hov. repeat (destruct Hov as [[= <- <-]|Hov]; [constructor|]). destruct Hov.
  - intros k l n f v t Hn Hv Ht. destruct (Nd _ _ _ Hn) as (-> & -> & ->). apply dget_In in Hv. vm_compute in Hv. destruct Hv as [[= <- <-]|[]]. vm_compute in Ht. injection Ht as <-.
    apply vo_bytes; [reflexivity|]. repeat constructor.
  - intros k l [[= <- <-]|[]]. reflexivity.
  - intros k l [[= <- <-]|[]] f t Hf. apply dget_In in Hf. vm_compute in Hf. destruct Hf as [[= <- <-]|[]]. exists (s "b"). vm_compute. auto.
  - intros k f t x Hd [H _]. destruct (Dc _ _ _ Hd) as [-> ->]. simpl in H. intuition discriminate.
  - intros k f t x Hd [H _]. destruct (Dc _ _ _ Hd) as [-> ->]. discriminate.
  - intros k l n f v Hn Hv. destruct (Nd _ _ _ Hn) as (-> & -> & ->). vm_compute in Hv. destruct Hv as [[= <- <-]|[]]. vm_compute. auto.
  - intros k l n Hn. destruct (Nd _ _ _ Hn) as (-> & -> & ->). intros f t v Ht Hv. apply dget_In in Hv. vm_compute in Hv. destruct Hv as [[= <- <-]|[]]. vm_compute in Ht. injection Ht as <-.
    exists (s "b"). split; [reflexivity|]. constructor. reflexivity.
Qed.
Example C68_bytes_case : doc_valid bin_heap bin_doc /\ doc_node bin_heap bin_doc (s "b") 0%nat 0%nat /\ dget (n_fieldsof bin_heap 0%nat) (s "d") = Some (VBytes [1; 255]).
Proof. split; [exact bin_valid|]. split; [split; [left; reflexivity|vm_compute; auto]|reflexivity]. Qed.
Example C68_case : doc_valid doc_heap sample_doc /\ doc_json doc_heap sample_doc /\ floats_ok bits_repr bits_parse /\
  snd (json_dumps bits_repr doc_heap sample_doc) = Ok (s "{""DM10"": {""props"": {""id"": 1}, ""texts"": {""main"": [""one"", "" "", ""two""]}, ""num_nodes"": {""token"": 2, ""phrase"": 1}, ""types"": {""token"": {""text"": [0, 1, 2, 3], ""pos"": [""N"", null], ""head"": [null, 0]}, ""phrase"": {""words"": [[0, 1]], ""args"": [[1, 0]], ""score"": [7]}}, ""schema"": {""token"": {""text"": {""type"": ""span"", ""args"": {""context"": ""main""}}, ""pos"": ""str"", ""head"": {""type"": ""noderef"", ""args"": {""layer"": ""token""}}}, ""phrase"": {""words"": {""type"": ""nodespan"", ""args"": {""layer"": ""token""}}, ""args"": {""type"": ""noderef_array"", ""args"": {""layer"": ""token""}}, ""score"": {""type"": ""i32"", ""args"": {""default"": 7}}}}}}") /\
  snd (json_loads bits_parse empty_heap (s "[]")) = Err DataError /\ snd (json_loads bits_parse empty_heap (s "{""DM9"": {}}")) = Err DataError /\ snd (json_loads bits_parse empty_heap (s "{""DM10"": ")) = Err ValueError.
Proof. split; [exact sample_valid|]. split; [exact sample_json|]. split; [exact bits_ok|]. vm_compute. repeat split. Qed.
