(** What an XML tree shows of a document. *)
From Verif Require Import PyBase Model_Text Model_Heap Model_Layer Model_Types Model_Msgpack Model_Document Model_Codec Model_XmlString Spec_Layer Spec_Document Spec_Codec.
From Verif Require Export Model_Xml.
From Verif Require Spec_Printout.
Local Open Scope Z_scope.

(** x is the integer i in decimal, without leading zeros *)
Definition int_text (i : Z) (x : pystr) : Prop :=
  let natural j y := Spec_Printout.decimal y = j /\ Forall Spec_Printout.is_digit y /\ y <> [] /\ (hd 0%N y = 48%N -> j = 0 /\ tl y = []) in
  if i <? 0 then exists y, x = 45%N :: y /\ natural (- i) y else natural i x.
(** n is at position p of the layer x of the document *)
Definition numbered (h : heap) (d : doc) (x : pystr) (n : nid) (y : pystr) : Prop :=
  exists l p, dget (d_layers d) x = Some l /\ at_pos h l p n /\ int_text (Z.of_nat p) y.

Section Shown.
Variables (float_str : N -> pystr) (h : heap) (d : doc) (segs : pystr -> list pystr).
(** how the value of a field of type t appears: an attribute, an array, or an element with the given attributes.
    A span appears as two segment numbers; the segments before the first make up the text before the span, those between them the span. *)
Inductive shown (t : dtype) : value -> entry -> Prop :=
| sw_int i x : In (dt_name t) [TI32; TI64] -> int_text i x -> shown t (VInt i) (ESimple x)
| sw_intbool (b : bool) x : In (dt_name t) [TI32; TI64] -> int_text (if b then 1 else 0) x -> shown t (VBool b) (ESimple x)
| sw_float b : dt_name t = TF64 -> shown t (VFloat b) (ESimple (float_str b))
| sw_bool (b : bool) : dt_name t = TBool -> shown t (VBool b) (ESimple (if b then s "True" else s "False"))
| sw_str x : dt_name t = TString -> shown t (VStr x) (ESimple (xml_string x))
| sw_span c txt a b i j x y : targets_text t c -> dget (d_texts d) c = Some txt ->
    int_text (Z.of_nat i) x -> int_text (Z.of_nat j) y -> (i <= j)%nat -> (j <= length (segs c))%nat ->
    List.concat (firstn i (segs c)) = firstn (Z.to_nat a) txt ->
    List.concat (firstn (j - i) (skipn i (segs c))) = firstn (Z.to_nat (b - a)) (skipn (Z.to_nat a) txt) ->
    shown t (VSpan c txt a b) (EEmbed [(s "from", x); (s "until", y)])
| sw_node x n y : dt_name t = TNodeRef -> targets_layer t x -> numbered h d x n y -> shown t (VNode n) (ESimple y)
| sw_many x ns ys : dt_name t = TNodeRefMany -> targets_layer t x -> Forall2 (numbered h d x) ns ys -> shown t (VNodeList (map Some ns)) (EArray ys)
| sw_coll x a b ns ys : dt_name t = TNodeRefMany -> targets_layer t x -> nodespan_iter h a b = Ok ns -> Forall2 (numbered h d x) ns ys ->
    shown t (VNodeSpan a b) (EArray ys)
| sw_nodespan x l a b y z : dt_name t = TNodeRefSpan -> targets_layer t x -> dget (d_layers d) x = Some l -> numbered h d x a y -> numbered h d x b z ->
    shown t (VNodeSpan a b) (EEmbed [(s "from", l_nameof h l ++ s "." ++ y); (s "to", l_nameof h l ++ s "." ++ z)]).

Definition attr_of (x : xml) (k : pystr) : option pystr := match x with Elem _ a _ => dget a k end.
(** the children of that name *)
Definition named (f : pystr) (kids : list xml) : list xml :=
  filter (fun k => match attr_of k (s "name") with Some g => str_eqb g f | None => false end) kids.
Definition present (f : pystr) (e : entry) (attrs : dict pystr) (kids : list xml) : Prop :=
  match e with
  | ESimple x => dget attrs f = Some x /\ named f kids = []
  | EArray l => dget attrs f = None /\ named f kids = [Elem (s "a") [(s "name", f)] (map (fun x => Elem (s "e") [(s "v", x)] []) l)]
  | EEmbed a => dget attrs f = None /\ named f kids = [Elem (s "d") ((s "name", f) :: a) []]
  end.
(** The element of a node: its identifier; each field that is declared and has a value, and no other. *)
Definition node_elem (id : pystr) (l : lid) (n : nid) (x : xml) : Prop :=
  exists attrs kids, x = Elem (s "n") attrs kids /\ dget attrs xid = Some id /\
  Forall (fun k => exists g, attr_of k (s "name") = Some g) kids /\
  forall f, f <> xid ->
    match dget (l_fields (h_layer h l)) f, dget (n_fieldsof h n) f with
    | Some _, Some VNone | None, _ | _, None => dget attrs f = None /\ named f kids = []
    | Some t, Some v => exists e, shown t v e /\ present f e attrs kids
    end.
(** The element of a layer: one child for each node, in order. *)
Definition layer_elem (prefix k : pystr) (l : lid) (x : xml) : Prop :=
  exists ns, x = Elem (s "layer") [(s "name", k)] ns /\ length ns = length (layer_iter h l) /\
  forall p n, at_pos h l p n -> exists y i, nth_error ns p = Some y /\ int_text (Z.of_nat p) i /\ node_elem (prefix ++ k ++ s "." ++ i) l n y.
(** The element of a text: its segments, and with verbose where they start and stop. *)
Definition text_elem (verbose : bool) (k t : pystr) (x : xml) : Prop :=
  List.concat (segs k) = t /\
  exists ss, x = Elem (s "text") [(s "name", k)] (Elem (s "sep") [] ss :: if verbose then [Elem (s "raw") [(s "value", t)] []] else []) /\
  length ss = length (segs k) /\
  forall i y, nth_error (segs k) i = Some y -> exists a, nth_error ss i = Some (Elem (s "s") ((s "v", y) :: a) []) /\
    if verbose then exists x1 x2 x3, a = [(s "id", x1); (s "start", x2); (s "stop", x3)] /\ int_text (Z.of_nat i) x1 /\
                    int_text (zlen (List.concat (firstn i (segs k)))) x2 /\ int_text (zlen (List.concat (firstn (S i) (segs k)))) x3
    else a = [].
End Shown.
(** The element of a field of a layer in the schema: its type and the options of the type. *)
Definition field_elem (f : pystr) (t : dtype) (x : xml) : Prop :=
  exists ty args, type_string (dt_name t) = Ok ty /\ x = Elem (s "field") [(s "name", f); (s "type", ty)] args /\
  Forall2 (fun kv a => exists y, a = Elem (s "arg") [(s "key", fst kv); (s "value", y)] [] /\
             (forall z, snd kv = VStr z -> y = z) /\ (forall i, snd kv = VInt i -> int_text i y)) (dt_opts t) args.
Definition prop_elem (k : pystr) (v : mobj) (x : xml) : Prop :=
  exists y, x = Elem (s "prop") [(s "key", k); (s "value", y)] [] /\ (forall z, v = MStr z -> y = z) /\ (forall i, v = MInt i -> int_text i y).
Definition document_elem (float_str : N -> pystr) (h : heap) (d : doc) (verbose : bool) (document_id : pystr) (x : xml) : Prop :=
  exists props fields texts layers ps segs,
  x = Elem (s "document") (match document_id with [] => [] | _ => [(xid, document_id)] end)
        [Elem (s "props") [] props; Elem (s "schema") [] fields; Elem (s "texts") [] texts; Elem (s "layers") [] layers] /\
  d_props d = MMap ps /\ Forall2 (fun kv => prop_elem (fst kv) (snd kv)) ps props /\
  Forall2 (fun kl y => exists fs, y = Elem (s "define") [(s "layer", fst kl)] fs /\
             Forall2 (fun ft => field_elem (fst ft) (snd ft)) (l_fields (h_layer h (snd kl))) fs) (d_layers d) fields /\
  Forall2 (fun kt => text_elem segs verbose (fst kt) (snd kt)) (d_texts d) texts /\
  Forall2 (fun kl => layer_elem float_str h d segs (match document_id with [] => [] | _ => document_id ++ s "." end) (fst kl) (snd kl)) (d_layers d) layers.
(** all identifiers of a tree *)
Fixpoint ids (x : xml) : list pystr :=
  match x with Elem _ a kids => match dget a xid with Some i => [i] | None => [] end ++ flat_map ids kids end.
(** no binary field has a value *)
Definition no_binary (h : heap) (d : doc) : Prop :=
  forall k l n f t v, doc_node h d k l n -> In (f, t) (l_fields (h_layer h l)) -> dget (n_fieldsof h n) f = Some v -> v <> VNone -> dt_name t <> TBinary.
