(** Property C40: tar collections. *)
From Verif Require Import PyBase Model_Text Model_Heap Model_Layer Model_Types Model_Msgpack Model_Document Model_Codec Model_Lazy Model_Collection Model_Tar
  Spec_Layer Spec_Document Spec_Codec Spec_Collection Spec_Tar Proof_Collection2 Proof_Tar Prop_Document Prop_Codec.
Local Open Scope Z_scope.

(** C40: the reader hands out the data of the documents written without an exception, in order, for every naming
    convention and with or without a root directory. *)
Theorem C40_order : forall df root h xs h1 w1 a, tar_run h (tar_open df root) xs = (h1, w1, a) -> (forall x, In x xs -> proper x) ->
  forall fuel, (length xs < fuel)%nat -> tar_iter fuel (tw_members w1) = Ok (map (fun d => mkMD d None None None None None) (tar_written h xs)).
Proof. exact tar_round. Qed.
Print Assumptions C40_order.
(** When no write failed, there is one for each document, and each decodes to an equal document. *)
Theorem C40_documents : forall xs h ds df root h1 w1 a, tar_run h (tar_open df root) xs = (h1, w1, a) -> (forall r, In r a -> r = Ok tt) ->
  Forall2 (fun x d => exists ex tv, x = WDocument d ex tv) xs ds -> wf h -> (forall d, In d ds -> doc_ok h d) ->
  Forall2 (fun d data => forall g, wf g -> exists h2 d', msgpack_decode g data = (h2, Ok d') /\ same_doc h d h2 d' /\ wf h2 /\ untouched g h2) ds (tar_written h xs).
Proof. exact (fun xs h ds df root h1 w1 a E A F W D => tar_decodes xs h h ds F D (looks_same_refl h) W W eq_refl (tar_answers xs h _ h1 w1 a E A)). Qed.
Print Assumptions C40_documents.
(** No two members have the same name. *)
Theorem C40_names : forall df root h xs h1 w1 a, tar_run h (tar_open df root) xs = (h1, w1, a) -> NoDup (file_names (tw_members w1)).
Proof. exact names_distinct. Qed.
Print Assumptions C40_names.
(** Of any archive the reader hands out the data of the files, in order, if they all have the magic bytes of a document; otherwise ValueError. *)
Theorem C40_any : forall ms fuel, (length ms < fuel)%nat ->
  (Forall (fun d => firstn 4 d = magic) (file_data ms) -> tar_iter fuel ms = Ok (map (fun d => mkMD d None None None None None) (file_data ms))) /\
  (~ Forall (fun d => firstn 4 d = magic) (file_data ms) -> tar_iter fuel ms = Err ValueError).
Proof. exact tar_any. Qed.
Print Assumptions C40_any.
Example C40_any_case : tar_iter 4 [TFile (s "a") (magic ++ [1%N]); TDir (s "d"); TFile (s "d/readme") (s "hello")] = Err ValueError /\
  tar_iter 3 [TDir (s "d"); TFile (s "a") (magic ++ [1%N])] = Ok [mkMD (magic ++ [1%N]) None None None None None].
Proof. vm_compute. split; reflexivity. Qed.
Definition default_format : docformat := mkDF (s "doc") 5 (s ".msgpack").
Definition tar_docs : list wdoc := [WDocument sample_doc true false; WOther; WDocument sample_doc false true; WMsgpack (mkMD (magic ++ [7%N]) None None None None None)].
Example C40_case : wf doc_heap /\ doc_ok doc_heap sample_doc /\ (forall x, In x tar_docs -> proper x) /\
  match tar_run doc_heap (tar_open default_format (Some (s "corpus"))) tar_docs with
  | (_, w, a) => a = [Ok tt; Err ValueError; Ok tt; Ok tt] /\ map member_name (tw_members w) = [s "corpus"; s "corpus/doc00000.msgpack"; s "corpus/doc00001.msgpack"; s "corpus/doc00002.msgpack"] /\
      rmap (@length _) (tar_iter 5 (tw_members w)) = Ok 3%nat
  end.
Proof.
  split; [exact (do_wf _ _ (dv_ok _ _ sample_valid))|]. split; [exact (dv_ok _ _ sample_valid)|].
  split; [intros x I; cbn in I; repeat (destruct I as [<-|I]; [reflexivity || exact Logic.I|]); contradiction|]. vm_compute. repeat split; reflexivity.
Qed.
