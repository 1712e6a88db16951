(** C82: document files of any origin. *)
From Verif Require Import PyBase Model_Heap Model_Msgpack Model_Document Model_Codec Model_Lazy Model_Collection Spec_Collection Spec_AnyFile Proof_AnyFile Prop_Collection Prop_Document.
Local Open Scope Z_scope.

(** Any bytes can be read as blocks in exactly one way, and these as documents in exactly one way. *)
Theorem C82_one_reading dec p bs : exists l e0 ds e, blocks_of dec p bs l e0 /\ docs_in l e0 ds e /\
  forall l' e0' ds' e', blocks_of dec p bs l' e0' -> docs_in l' e0' ds' e' -> l' = l /\ e0' = e0 /\ ds' = ds /\ e' = e.
Proof.
  destruct (blocks_total dec (length bs) bs p (le_n _)) as (l & e0 & B). destruct (docs_total l e0) as (ds & e & D). exists l, e0, ds, e. split; [exact B|]. split; [exact D|]. intros l' e0' ds' e' B' D'.
  destruct (blocks_unique _ _ _ _ _ B _ _ B') as [<- <-]. destruct (docs_unique _ _ _ _ D _ _ D') as [<- <-]. auto.
Qed.
Print Assumptions C82_one_reading.

(** Opening succeeds for exactly the files with a header, and the codec is the one of that name. *)
Theorem C82_opens g f : (exists r, reader_open g f = Ok r) <-> exists dec p body, opened g f dec p body.
Proof. split; [intros [r H]; destruct (open_any g f r H) as (p & body & P & _); eauto|intros (dec & p & body & P); exact (opened_open g f dec p body P)]. Qed.
Print Assumptions C82_opens.
Theorem C82_bad_name g f o r : firstn 4 f = s "Dmf1" -> unpack1 (skipn 4 f) = Ok (o, r) -> (forall x, o <> MStr x) ->
  reader_open g f = Err (match o with MArr _ | MMap _ => TypeError | _ => NotImplementedError end).
Proof. exact (open_refuses g f o r). Qed.
Print Assumptions C82_bad_name.
Example C82_bad_name_case : reader_open back_registry (s "Dmf1" ++ [144; 2; 194]%N) = Err TypeError /\ reader_open back_registry (s "Dmf1" ++ [5; 2; 194]%N) = Err NotImplementedError.
Proof. vm_compute. auto. Qed.

(** What is read is that reading: by next(), by iteration, as documents and block by block; and get() finds each of
    these documents whatever was called before. *)
Theorem C82_reads g f r : reader_open g f = Ok r -> exists p body l e0 ds e,
  opened g f (r_codec r) p body /\ blocks_of (r_codec r) p body l e0 /\ docs_in l e0 ds e /\
  rcalls r (repeat RNext (S (length ds))) = map (fun d => ADoc (Ok (Some (fresh d)))) ds ++ [ADoc (last_answer e)] /\
  (forall n, (length ds < n)%nat -> snd (reader_iter n r) = all_answer e (map fresh ds)) /\
  (forall n h, (length ds < n)%nat -> let '(h1, _, x) := docreader_iter n h r in (h1, x) = make_docs h ds e) /\
  (forall n, (length l < n)%nat -> snd (blocks_iter n r) = all_answer e0 (map (fun py => block_open (fst py) (snd py)) l)) /\
  (forall cs d, In d ds -> rcalls r (cs ++ [RGet (fst d)]) = rcalls r cs ++ [ADoc (Ok (Some (fresh d)))]).
Proof.
  intros H. destruct (open_any g f r H) as (p & body & P & _ & Ep & Eb & _). destruct (blocks_total (r_codec r) (length body) body p (le_n _)) as (l & e0 & B). destruct (docs_total l e0) as (ds & e & D).
  pose proof (open_left g f r l e0 ds e p body H P B D) as L. exists p, body, l, e0, ds, e. split; [exact P|]. split; [exact B|]. split; [exact D|].
  split; [exact (nexts_any ds r e L)|]. split; [intros n; exact (iter_any ds r e n L)|]. split; [intros n h; exact (docs_any ds h r e n L)|].
  split; [intros n; apply blocks_any; rewrite Ep, Eb; exact B|]. intros cs d. exact (get_after g f r p body l e0 ds e cs d H P B D).
Qed.
Print Assumptions C82_reads.
Theorem C82_block p y ds e b : in_block p 0 y ds e -> b_pos b = p -> b_data b = y -> snd (block_documents b) = all_answer e (map (fun d => (snd (fst d), fresh d)) ds).
Proof. exact (block_documents_any p y ds e b). Qed.
Print Assumptions C82_block.

(** a file made by hand: a block of two documents followed by None and bytes that are never read, an empty block, a block whose second value is a number *)
Definition packed (x : list N) : list N := match pack (MBin x) with Ok b => b | Err _ => [] end.
Definition odd_file : list N := s "Dmf1" ++ [164%N] ++ s "none" ++ [7; 194]%N ++
  packed (packed (s "DM_1a") ++ packed (s "DM_1bc") ++ [192; 7]%N) ++ packed [] ++ packed (packed (s "DM_1d") ++ [7]%N) ++ packed (packed (s "DM_1e")).
Example C82_case : match reader_open back_registry odd_file with
  | Ok r => rcalls r [RNext; RNext; RNext; RNext] =
      map (fun p => ADoc (Ok (Some (fresh p)))) [((11, 0), s "DM_1a"); ((11, 7), s "DM_1bc"); ((32, 0), s "DM_1d")] ++ [ADoc (Err ValueError)] /\
      rcalls r [RSeek 17; RBlock; RGet (32, 0); RBlock; RGet (11, 7)] = [ADone (Ok tt); ABlock (Err TypeError); ADoc (Ok (Some (fresh ((32, 0), s "DM_1d"))));
        ABlock (Ok (Some (block_open 42 (packed (s "DM_1e"))))); ADoc (Ok (Some (fresh ((11, 7), s "DM_1bc"))))]
  | Err _ => False
  end.
Proof. vm_compute. repeat split. Qed.
(** A document whose data end too early ends the iteration over a DocumentReader as if the file ended there: the documents behind it are lost
    without an exception, though the lazy reader still has them. *)
Definition cut_file : list N := s "Dmf1" ++ [164%N] ++ s "none" ++ [7; 194]%N ++ packed (packed (s "DM_1a") ++ packed (s "DM_1bc")).
Theorem C82_cut_document : exists f r, reader_open back_registry f = Ok r /\
  rcalls r [RNext; RNext; RNext] = [ADoc (Ok (Some (fresh ((11, 0), s "DM_1a")))); ADoc (Ok (Some (fresh ((11, 7), s "DM_1bc")))); ADoc (Ok None)] /\
  forall n h, let '(h1, _, x) := docreader_iter (S n) h r in h1 = h /\ x = Ok [].
Proof.
  destruct (reader_open back_registry cut_file) as [r|] eqn:O; [|vm_compute in O; discriminate]. exists cut_file, r. split; [exact O|]. vm_compute in O. injection O as <-.
  split; [vm_compute; reflexivity|]. intros n h. vm_compute. auto.
Qed.
Print Assumptions C82_cut_document.
